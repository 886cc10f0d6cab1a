(** Lemmas behind C138. *)
From Coq Require Import Lia ZifyBool.
From Verif Require Import PyBase L_PyBase PyDict M_ConnPool S_Pool L_ConnPool M_PoolLife S_PoolLife L_PoolLife M_PoolMake S_PoolMake.
Open Scope nat_scope.

Definition pk (k : nat) : pool := {| p_free := Some (rev (seq 0 k)); p_num := Z.of_nat k; p_attempts := k; p_closed := [] |}.
Lemma full_takes cfg k : q_full cfg (rev (seq 0 k)) = false <-> takes cfg k.
Proof. unfold q_full, takes, len. rewrite rev_length, seq_length. lia. Qed.
Lemma pk_next k : set_free {| p_free := Some (rev (seq 0 k)); p_num := Z.of_nat k + 1; p_attempts := S k; p_closed := [] |} (Some (k :: rev (seq 0 k))) = pk (S k).
Proof. unfold pk, set_free. cbn [p_num p_attempts p_closed]. rewrite seq_S, rev_app_distr. cbn [rev app plus]. f_equal. lia. Qed.

Lemma fill_spec cfg mk n : forall k,
  match fill cfg mk n (pk k) with
  | Built p => (forall i, k <= i < k + n -> fine cfg mk i) /\ p = pk (k + n)
  | Failed e => exists i, k <= i < k + n /\ (forall j, k <= j < i -> fine cfg mk j) /\ ((e = EmptyPoolError /\ ~ allowed cfg i) \/ (e = OSError /\ allowed cfg i /\ mk i = false)) /\ p_free (fill_at cfg mk n (pk k)) = Some (rev (seq 0 i)) /\ p_closed (fill_at cfg mk n (pk k)) = []
  | Blocks => exists i, k <= i < k + n /\ (forall j, k <= j < i -> fine cfg mk j) /\ allowed cfg i /\ mk i = true /\ ~ takes cfg i
  end.
Proof.
  induction n as [|n IH]; intros k; cbn [fill fill_at]; [rewrite Nat.add_0_r; split; [intros i Hi; lia|reflexivity]|].
  unfold new_conn. cbn [pk p_num p_attempts p_free p_closed]. destruct (max_connections cfg <=? Z.of_nat k)%Z eqn:M.
  - exists k. split; [lia|]. split; [intros j Hj; lia|]. split; [left; split; [reflexivity|unfold allowed; lia]|split; reflexivity].
  - assert (Al : allowed cfg k) by (unfold allowed; lia). destruct (mk k) eqn:K.
    + cbn [p_free]. destruct (q_full cfg (rev (seq 0 k))) eqn:Q.
      * exists k. split; [lia|]. split; [intros j Hj; lia|]. split; [exact Al|]. split; [exact K|]. intros T. apply full_takes in T. congruence.
      * apply full_takes in Q. rewrite pk_next. assert (Fk : fine cfg mk k) by (split; [exact Al|split; assumption]). specialize (IH (S k)). destruct (fill cfg mk n (pk (S k))) as [p|e|].
        -- destruct IH as (A & ->). split; [|f_equal; lia]. intros i Hi. destruct (Nat.eq_dec i k) as [->|]; [exact Fk|apply A; lia].
        -- destruct IH as (i & Hi & A & B). exists i. split; [lia|]. split; [|exact B]. intros j Hj. destruct (Nat.eq_dec j k) as [->|]; [exact Fk|apply A; lia].
        -- destruct IH as (i & Hi & A & B). exists i. split; [lia|]. split; [|exact B]. intros j Hj. destruct (Nat.eq_dec j k) as [->|]; [exact Fk|apply A; lia].
    + exists k. split; [lia|]. split; [intros j Hj; lia|]. split; [right; split; [reflexivity|split; assumption]|split; reflexivity].
Qed.
Lemma build_fill cfg mk : build cfg mk = fill cfg mk (initial cfg) (pk 0).
Proof. reflexivity. Qed.

Lemma first_one cfg mk i j : first_not cfg mk i -> first_not cfg mk j -> i = j.
Proof. intros (A & B & C) (A' & B' & C'). destruct (Nat.lt_trichotomy i j) as [H|[H|H]]; [destruct (C (B' i H))|exact H|destruct (C' (B j H))]. Qed.

Lemma build_cases cfg mk :
  match build cfg mk with
  | Built p => (forall i, i < initial cfg -> fine cfg mk i) /\ p = pk (initial cfg)
  | Failed e => exists i, first_not cfg mk i /\ ((e = EmptyPoolError /\ ~ allowed cfg i) \/ (e = OSError /\ allowed cfg i /\ mk i = false)) /\ p_free (fill_at cfg mk (initial cfg) empty_pool) = Some (rev (seq 0 i)) /\ p_closed (fill_at cfg mk (initial cfg) empty_pool) = []
  | Blocks => exists i, first_not cfg mk i /\ allowed cfg i /\ mk i = true /\ ~ takes cfg i
  end.
Proof.
  rewrite build_fill. change empty_pool with (pk 0). pose proof (fill_spec cfg mk (initial cfg) 0) as H. destruct (fill cfg mk (initial cfg) (pk 0)) as [p|e|]; cbn [plus] in H.
  - destruct H as (A & B). split; [intros i Hi; apply A; lia|exact B].
  - destruct H as (i & Hi & A & B & C). exists i. split; [|split; [exact B|exact C]]. split; [lia|]. split; [intros j Hj; apply A; lia|]. intros (X & Y & _). destruct B as [(_ & B)|(_ & _ & B)]; [exact (B X)|congruence].
  - destruct H as (i & Hi & A & B & C & D). exists i. split; [|auto]. split; [lia|]. split; [intros j Hj; apply A; lia|]. intros (_ & _ & X). exact (D X).
Qed.

Lemma built_exactly cfg mk : (exists p, build cfg mk = Built p) <-> forall i, i < initial cfg -> fine cfg mk i.
Proof.
  pose proof (build_cases cfg mk) as H. split.
  - intros (p & E). rewrite E in H. exact (proj1 H).
  - intros F. destruct (build cfg mk) as [p|e|]; [eauto| |]; destruct H as (i & (A & _ & N) & _); destruct (N (F i A)).
Qed.
Lemma built_pool cfg mk p : build cfg mk = Built p -> p_free p = Some (rev (seq 0 (initial cfg))) /\ p_num p = Z.of_nat (initial cfg) /\ p_closed p = [].
Proof. intros E. pose proof (build_cases cfg mk) as H. rewrite E in H. destruct H as (_ & ->). repeat split. Qed.
Lemma empty_exactly cfg mk : build cfg mk = Failed EmptyPoolError <-> exists i, first_not cfg mk i /\ ~ allowed cfg i.
Proof.
  pose proof (build_cases cfg mk) as H. split.
  - intros E. rewrite E in H. destruct H as (i & A & [(_ & B)|(K & _)] & _); [eauto|discriminate].
  - intros (i & F & N). destruct (build cfg mk) as [p|e|].
    + destruct F as (A & _ & X). destruct (X (proj1 H i A)).
    + destruct H as (j & G & [(-> & _)|(_ & B & _)] & _); [reflexivity|]. pose proof (first_one _ _ _ _ F G). subst j. contradiction.
    + destruct H as (j & G & B & _). pose proof (first_one _ _ _ _ F G). subst j. contradiction.
Qed.
Lemma failed_exactly cfg mk : build cfg mk = Failed OSError <-> exists i, first_not cfg mk i /\ allowed cfg i /\ mk i = false.
Proof.
  pose proof (build_cases cfg mk) as H. split.
  - intros E. rewrite E in H. destruct H as (i & A & [(K & _)|(_ & B)] & _); [discriminate|eauto].
  - intros (i & F & N & M). destruct (build cfg mk) as [p|e|].
    + destruct F as (A & _ & X). destruct (X (proj1 H i A)).
    + destruct H as (j & G & [(_ & B)|(-> & _)] & _); [|reflexivity]. pose proof (first_one _ _ _ _ F G). subst j. contradiction.
    + destruct H as (j & G & _ & B & _). pose proof (first_one _ _ _ _ F G). subst j. congruence.
Qed.
Lemma blocks_exactly cfg mk : build cfg mk = Blocks <-> exists i, first_not cfg mk i /\ allowed cfg i /\ mk i = true /\ ~ takes cfg i.
Proof.
  pose proof (build_cases cfg mk) as H. split.
  - intros E. rewrite E in H. exact H.
  - intros (i & F & N & M & T). destruct (build cfg mk) as [p|e|]; [| |reflexivity].
    + destruct F as (A & _ & X). destruct (X (proj1 H i A)).
    + destruct H as (j & G & [(_ & B)|(_ & _ & B)] & _); pose proof (first_one _ _ _ _ F G); subst j; [contradiction|congruence].
Qed.
(** no other outcome *)
Lemma outcomes cfg mk e : build cfg mk = Failed e -> e = EmptyPoolError \/ e = OSError.
Proof. intros E. pose proof (build_cases cfg mk) as H. rewrite E in H. destruct H as (i & _ & [(-> & _)|(-> & _)] & _); auto. Qed.

(** ** what is left behind *)
Lemma tidy_nothing s : u_held s = false -> u_lent s = [] -> filter (fun e => e_mine e || e_cycle e) (u_errs s) = [] -> u_open (tidy s) = [].
Proof.
  intros A B C. unfold tidy, referred, pool_alive. cbn [u_open u_lent u_errs u_held u_pool]. rewrite A, B, C. cbn. induction (u_open s) as [|c l IH]; [reflexivity|exact IH].
Qed.
Lemma left_nothing cfg mk cfg' mk' : build cfg mk = Failed OSError -> u_open (ufrom cfg' mk' (ufail cfg mk OSError) [UForget 0]) = [].
Proof. intros _. cbn [ufrom ustep fst]. apply tidy_nothing; reflexivity. Qed.
Lemma left_collected cfg mk e cfg' mk' : build cfg mk = Failed e -> u_open (ufrom cfg' mk' (ufail cfg mk e) [UForget 0; UCollect]) = [].
Proof. intros _. cbn [ufrom ustep fst]. apply tidy_nothing; [reflexivity|reflexivity|]. cbn [ufail u_errs forget nth_error firstn skipn app tidy filter e_mine e_cycle e_lost]. destruct (cyclic e); reflexivity. Qed.
Lemma limit_first cfg mk i : first_not cfg mk i -> ~ allowed cfg i -> i = Z.to_nat (max_connections cfg).
Proof. intros (_ & F & _) N. unfold allowed in N. destruct i as [|i]; [lia|]. destruct (F i (Nat.lt_succ_diag_r i)) as (A & _). unfold allowed in A. lia. Qed.
Lemma left_open cfg mk cfg' mk' : build cfg mk = Failed EmptyPoolError -> let s := ufrom cfg' mk' (ufail cfg mk EmptyPoolError) [UForget 0] in
  List.length (u_open s) = Z.to_nat (max_connections cfg) /\ NoDup (u_open s) /\ forall c, In c (u_open s) -> ~ usable s c /\ ~ kept_by_error s c.
Proof.
  intros E. pose proof (build_cases cfg mk) as H. rewrite E in H. destruct H as (i & F & [(_ & N)|(K & _)] & P & Q); [|discriminate]. pose proof (limit_first cfg mk i F N) as Ei.
  assert (Op : u_open (ufrom cfg' mk' (ufail cfg mk EmptyPoolError) [UForget 0]) = rev (seq 0 i)).
  { cbn [ufrom ustep fst]. unfold ufail. cbn [u_pool u_held u_lent u_shut u_open u_errs]. unfold tidy, referred, pool_alive. cbn [u_pool u_held u_lent u_shut u_open u_errs forget nth_error firstn skipn app filter e_mine e_cycle e_lost cyclic orb existsb mem_nat]. rewrite P, Q.
    generalize (rev (seq 0 i)). intros l. assert (G : forall l1, incl l1 l -> filter (fun c => true && mem_nat c l && negb (mem_nat c []) && negb (mem_nat c [])) l1 = l1).
    { induction l1 as [|c l1 IH]; intros I; [reflexivity|]. cbn [filter]. assert (Hc : mem_nat c l = true) by (apply mem_nat_In, I; left; reflexivity). rewrite Hc. cbn. f_equal. apply IH. intros x Hx. apply I. right. exact Hx. }
    exact (G l (incl_refl l)). }
  intros s. unfold s. rewrite Op. split; [rewrite rev_length, seq_length; exact Ei|]. split; [apply NoDup_rev, seq_NoDup|]. intros c _. split.
  - intros [[]|(K & _)]. discriminate K.
  - intros (e & He & M & _). cbn in He. destruct He as [<-|[]]. discriminate M.
Qed.
