(** Lemmas about the connection pool. *)
From Coq Require Import ZifyBool.
From Verif Require Import PyBase L_PyBase PyDict L_PyDict M_ConnPool S_Pool.

Lemma mem_nat_In c l : mem_nat c l = true <-> In c l.
Proof.
  unfold mem_nat. rewrite existsb_exists. split; [intros (x & Hx & E); apply Nat.eqb_eq in E; subst; exact Hx|]. intros H. exists c. split; [exact H|apply Nat.eqb_refl].
Qed.
Lemma mem_nat_not c l : mem_nat c l = false <-> ~ In c l.
Proof. rewrite <- mem_nat_In. destruct (mem_nat c l); split; congruence. Qed.

(** ** the structural invariant *)
Record good (cfg : config) (p : pool) (lent : list nat) : Prop := {
  g_nd : NoDup (free_conns p ++ lent);
  g_lt : forall c, In c (free_conns p ++ lent) -> (c < p_attempts p)%nat;
  g_clt : forall c, In c (p_closed p) -> (c < p_attempts p)%nat;
  g_bound : 0 < max_free cfg -> len (free_conns p) <= max_free cfg }.

Lemma good_new cfg mk p lent p1 r : good cfg p lent -> new_conn cfg mk p = (p1, r) ->
  good cfg p1 lent /\ free_conns p1 = free_conns p /\ p_free p1 = p_free p /\ p_closed p1 = p_closed p /\ (p_attempts p <= p_attempts p1)%nat /\
  (forall n, r = Ok n -> n = p_attempts p /\ p_attempts p1 = S n /\ ~ In n (free_conns p ++ lent) /\ ~ In n (p_closed p)).
Proof.
  intros [A B C D]. unfold new_conn. destruct (max_connections cfg <=? p_num p); [intros E; injection E as <- <-; split; [split; assumption|]; do 4 (split; [auto|]); discriminate|].
  assert (G : good cfg {| p_free := p_free p; p_num := p_num p + 1; p_attempts := S (p_attempts p); p_closed := p_closed p |} lent).
  { split; [exact A| | |exact D]; cbn [p_attempts p_closed]; intros c Hc; [specialize (B c Hc)|specialize (C c Hc)]; lia. }
  destruct (mk (p_attempts p)); intros E; injection E as <- <-; (split; [exact G|]); do 4 (split; [cbn; auto|]); [|discriminate].
  intros n [= <-]. repeat split; cbn; auto; intros Hi; [specialize (B _ Hi)|specialize (C _ Hi)]; lia.
Qed.

Lemma len_cons {A} (a : A) l : len (a :: l) = len l + 1.
Proof. unfold len. cbn [length]. lia. Qed.

Lemma good_put cfg p lent c : good cfg p lent -> ~ In c (free_conns p ++ lent) -> (c < p_attempts p)%nat -> good cfg (put_conn cfg p c) lent.
Proof.
  intros [A B C D] Hn Hl. unfold put_conn. destruct (p_free p) as [q|] eqn:E.
  - destruct (q_full cfg q) eqn:F.
    + split; cbn; unfold free_conns in *; cbn; rewrite E in *; auto. intros x Hx. apply in_app_or in Hx as [Hx|[<-|[]]]; auto.
    + unfold free_conns in *. rewrite E in *. split; cbn.
      * constructor; assumption.
      * intros x [<-|Hx]; auto.
      * exact C.
      * intros Hm. unfold q_full in F. change (len (c :: q) <= max_free cfg). rewrite len_cons. specialize (D Hm). apply andb_false_iff in F as [F|F]; lia.
  - split; cbn; unfold free_conns in *; cbn; rewrite E in *; auto. intros x Hx. apply in_app_or in Hx as [Hx|[<-|[]]]; auto.
Qed.

Lemma put_attempts cfg p c : p_attempts (put_conn cfg p c) = p_attempts p.
Proof. unfold put_conn. destruct (p_free p) as [q|]; [destruct (q_full cfg q)|]; reflexivity. Qed.
Lemma put_free_In cfg p c x : In x (free_conns (put_conn cfg p c)) -> x = c \/ In x (free_conns p).
Proof. unfold put_conn, free_conns. destruct (p_free p) as [q|] eqn:E; [destruct (q_full cfg q)|]; cbn; rewrite ?E; auto. intros [<-|Hx]; auto. Qed.

Lemma good_pop cfg p lent c q : p_free p = Some (c :: q) -> good cfg p lent -> good cfg (set_free p (Some q)) (c :: lent) /\ good cfg (set_free p (Some q)) lent.
Proof.
  intros E [A B C D]. unfold free_conns in *. rewrite E in *. assert (N : NoDup (q ++ c :: lent)) by (apply (NoDup_Add (a := c) (l := q ++ lent)); [apply Add_app|]; inversion A; split; assumption).
  assert (Bd : 0 < max_free cfg -> len q <= max_free cfg) by (intros Hm; specialize (D Hm); rewrite len_cons in D; lia).
  split; (split; cbn; [|intros x Hx; apply B; cbn; rewrite in_app_iff in *; cbn in *; tauto|exact C|exact Bd]); [exact N|inversion A; assumption].
Qed.

(** splitting a get_conn into its parts *)
Definition refill (cfg : config) (mk : nat -> bool) (q : list nat) (p0 : pool) : pool * res unit :=
  if len q <? min_free cfg
  then match new_conn cfg mk p0 with (p', Ok n) => (put_conn cfg p' n, Ok tt) | (p', Raise e) => (p', Raise e) end
  else (p0, Ok tt).
Lemma get_unfold cfg mk dr p c q : p_free p = Some (c :: q) -> get_conn cfg mk dr p =
  let '(p1, r) := refill cfg mk q (set_free p (Some q)) in
  match r with Raise e => (p1, Raise e) | Ok _ => if dropped dr p1 c then (add_num (close_conn p1 c) (-1), Ok c) else (p1, Ok c) end.
Proof. intros E. unfold get_conn. rewrite E. reflexivity. Qed.

Lemma good_refill cfg mk q p0 lent p1 r : good cfg p0 lent -> refill cfg mk q p0 = (p1, r) -> good cfg p1 lent /\ (p_attempts p0 <= p_attempts p1)%nat.
Proof.
  intros G. unfold refill. destruct (len q <? min_free cfg); [|intros E; injection E as <- <-; auto].
  destruct (new_conn cfg mk p0) as [p' [n|e]] eqn:En.
  - destruct (good_new _ _ _ _ _ _ G En) as (G' & Ef & _ & _ & Ha & Hn). destruct (Hn n eq_refl) as (-> & Ha' & Hi & _).
    intros E; injection E as <- <-. split; [|rewrite put_attempts; exact Ha]. apply good_put; [exact G'|rewrite Ef; exact Hi|lia].
  - destruct (good_new _ _ _ _ _ _ G En) as (G' & _ & _ & _ & Ha & _). intros E; injection E as <- <-. auto.
Qed.

Lemma good_close_conn cfg p lent c d : good cfg p lent -> (c < p_attempts p)%nat -> good cfg (add_num (close_conn p c) d) lent.
Proof. intros [A B C D] Hc. split; cbn; auto. intros x Hx. apply in_app_or in Hx as [Hx|[<-|[]]]; auto. Qed.

Lemma good_drop_lent cfg p c lent : good cfg p (c :: lent) -> good cfg p lent.
Proof. intros [A B C D]. split; auto. - apply NoDup_remove_1 in A. exact A. - intros x Hx. apply B. rewrite in_app_iff in *. cbn. tauto. Qed.

Lemma good_get cfg mk dr p lent p' r : good cfg p lent -> get_conn cfg mk dr p = (p', r) ->
  good cfg p' (match r with Ok c => c :: lent | Raise _ => lent end).
Proof.
  intros G E. destruct (p_free p) as [[|c q]|] eqn:Ef.
  - unfold get_conn in E. rewrite Ef in E. destruct (block cfg); [injection E as <- <-; exact G|]. destruct (good_new _ _ _ _ _ _ G E) as (G' & Efr & _ & _ & _ & Hn).
    destruct r as [n|e]; [|exact G']. destruct (Hn n eq_refl) as (-> & Ha & Hi & _). destruct G' as [A B C D]. assert (F0 : free_conns p' = []) by (rewrite Efr; unfold free_conns; rewrite Ef; reflexivity). rewrite F0 in *.
    split; rewrite ?F0; cbn; auto.
    + constructor; [|exact A]. unfold free_conns in Hi. rewrite Ef in Hi. exact Hi.
    + intros x [<-|Hx]; [lia|apply B; exact Hx].
  - rewrite (get_unfold _ _ _ _ _ _ Ef) in E. destruct (good_pop _ _ _ _ _ Ef G) as [G0 _].
    destruct (refill cfg mk q (set_free p (Some q))) as [p1 [u|e]] eqn:Er; destruct (good_refill _ _ _ _ _ _ _ G0 Er) as [G1 _].
    + destruct (dropped dr p1 c); injection E as <- <-; [|exact G1]. apply good_close_conn; [exact G1|]. apply (g_lt _ _ _ G1). apply in_or_app. right. left. reflexivity.
    + injection E as <- <-. exact (good_drop_lent _ _ _ _ G1).
  - unfold get_conn in E. rewrite Ef in E. injection E as <- <-. exact G.
Qed.

Lemma NoDup_app_remove (a l : list nat) c : NoDup (a ++ l) -> NoDup (a ++ remove Nat.eq_dec c l).
Proof.
  induction l as [|x l IH]; intros H; [exact H|]. cbn [remove]. destruct (Nat.eq_dec c x); [apply IH; apply NoDup_remove_1 in H; exact H|].
  pose proof (NoDup_remove_2 _ _ _ H) as Hn. apply NoDup_remove_1 in H. apply IH in H.
  apply (NoDup_Add (a := x) (l := a ++ remove Nat.eq_dec c l)); [apply Add_app|]. split; [exact H|]. intros Hi. apply Hn. apply in_app_or in Hi as [Hi|Hi]; apply in_or_app; [left; exact Hi|right].
  apply in_remove in Hi as [Hi _]. exact Hi.
Qed.

Lemma good_step cfg mk s o : good cfg (s_pool s) (s_lent s) -> (match o with PPut c => In c (s_lent s) | _ => True end) ->
  good cfg (s_pool (fst (pstep cfg mk s o))) (s_lent (fst (pstep cfg mk s o))).
Proof.
  intros G Ho. destruct o as [dr|c| |c]; cbn [pstep].
  - destruct (get_conn cfg mk _ (s_pool s)) as [p r] eqn:E. cbn [fst s_pool s_lent]. exact (good_get _ _ _ _ _ _ _ G E).
  - cbn [fst s_pool s_lent]. apply good_put.
    + destruct G as [A B C D]. split; auto; [apply NoDup_app_remove; exact A|]. intros x Hx. apply B. apply in_app_or in Hx as [Hx|Hx]; apply in_or_app; [left; exact Hx|right].
      apply in_remove in Hx as [Hx _]. exact Hx.
    + intros Hi. apply in_app_or in Hi as [Hi|Hi]; [|exact (remove_In Nat.eq_dec (s_lent s) c Hi)]. pose proof (g_nd _ _ _ G) as A. clear -A Hi Ho.
      induction (free_conns (s_pool s)) as [|x l IH]; [destruct Hi|]. cbn in A. inversion A as [|y k Hn A']; subst. destruct Hi as [<-|Hi]; [apply Hn, in_or_app; right; exact Ho|exact (IH Hi A')].
    + apply (g_lt _ _ _ G). apply in_or_app. right. exact Ho.
  - cbn [fst s_pool s_lent]. unfold pool_close. destruct (p_free (s_pool s)) as [q|] eqn:E; [|exact G]. destruct G as [A B C D]. unfold free_conns in *. rewrite E in *.
    split; cbn.
    + clear -A. induction q as [|x q IH]; [exact A|]. inversion A; auto.
    + intros c Hc. apply B, in_or_app. right. exact Hc.
    + intros c Hc. apply in_app_or in Hc as [Hc|Hc]; [auto|]. apply B, in_or_app. left. exact Hc.
    + intros Hm. unfold len. cbn. lia.
  - exact G.
Qed.

Lemma good_run cfg mk ops : forall s, good cfg (s_pool s) (s_lent s) -> lawful cfg mk s ops -> good cfg (s_pool (prun cfg mk s ops)) (s_lent (prun cfg mk s ops)).
Proof. induction ops as [|o ops IH]; intros s G L; [exact G|]. destruct L as [L1 L2]. cbn [prun]. apply IH; [apply good_step; assumption|exact L2]. Qed.

(** ** the counting invariant *)
Definition alive (p : pool) (c : nat) : bool := negb (mem_nat c (p_closed p)).
Definition cnt (p : pool) (lent : list nat) : Z := len (free_conns p) + len (filter (alive p) lent).
Record clean (cfg : config) (k : Z) (p : pool) (lent : list nat) : Prop := {
  cl_free : forall c, In c (free_conns p) -> ~ In c (p_closed p);
  cl_cnt : cnt p lent + k <= p_num p;
  cl_max : p_num p <= Z.max 0 (max_connections cfg) }.

Lemma alive_true p c : alive p c = true <-> ~ In c (p_closed p).
Proof. unfold alive. rewrite negb_true_iff. apply mem_nat_not. Qed.

Lemma len_filter_le {A} (f g : A -> bool) l : (forall x, f x = true -> g x = true) -> len (filter f l) <= len (filter g l).
Proof.
  unfold len. intros H. induction l as [|a l IH]; cbn [filter]; [lia|]. destruct (f a) eqn:E; [rewrite (H a E); cbn [length]; lia|]. destruct (g a); cbn [length]; lia.
Qed.

Lemma clean_new cfg mk k p lent p1 r : clean cfg k p lent -> new_conn cfg mk p = (p1, r) ->
  clean cfg k p1 lent /\ (forall n, r = Ok n -> clean cfg (k + 1) p1 lent).
Proof.
  intros [A B C]. unfold new_conn. destruct (max_connections cfg <=? p_num p) eqn:E; [intros X; injection X as <- <-; split; [split; assumption|discriminate]|].
  assert (G : clean cfg (k + 1) {| p_free := p_free p; p_num := p_num p + 1; p_attempts := S (p_attempts p); p_closed := p_closed p |} lent).
  { split; [exact A| |cbn; lia]. cbn [p_num]. change (cnt _ lent) with (cnt p lent). lia. }
  assert (G' : clean cfg k {| p_free := p_free p; p_num := p_num p + 1; p_attempts := S (p_attempts p); p_closed := p_closed p |} lent) by (destruct G; split; auto; lia).
  destruct (mk (p_attempts p)); intros X; injection X as <- <-; split; auto.
Qed.

Lemma cnt_close p lent c : cnt (close_conn p c) lent <= cnt p lent.
Proof.
  unfold cnt. change (free_conns (close_conn p c)) with (free_conns p). enough (len (filter (alive (close_conn p c)) lent) <= len (filter (alive p) lent)) by lia.
  apply len_filter_le. intros x. rewrite !alive_true. cbn. rewrite in_app_iff. tauto.
Qed.

Lemma clean_close_conn cfg k p lent c : clean cfg k p lent -> ~ In c (free_conns p) -> clean cfg (k - 1) (add_num (close_conn p c) (-1)) lent.
Proof.
  intros [A B C] Hc. split; cbn [p_closed p_num add_num close_conn].
  - intros x Hx. change (In x (free_conns p)) in Hx. rewrite in_app_iff. cbn. intros [H|[<-|[]]]; [exact (A x Hx H)|contradiction].
  - pose proof (cnt_close p lent c). change (cnt (add_num (close_conn p c) (-1)) lent) with (cnt (close_conn p c) lent). lia.
  - lia.
Qed.

Lemma clean_put cfg k p lent c : clean cfg k p lent -> 1 <= k -> ~ In c (free_conns p) -> ~ In c (p_closed p) -> clean cfg (k - 1) (put_conn cfg p c) lent.
Proof.
  intros Cl Hk Hc Hd. unfold put_conn. destruct (p_free p) as [q|] eqn:E; [destruct (q_full cfg q)|].
  - pose proof (clean_close_conn cfg k p lent c Cl Hc) as X. exact X.
  - destruct Cl as [A B C]. unfold cnt, free_conns in *. rewrite E in *. split; unfold cnt, free_conns; cbn [p_free set_free p_closed p_num].
    + intros x [<-|Hx]; auto.
    + rewrite len_cons. change (alive (set_free p (Some (c :: q)))) with (alive p). lia.
    + exact C.
  - destruct Cl as [A B C]. split; cbn [p_closed p_num close_conn].
    + unfold free_conns. cbn. rewrite E. intros x [].
    + pose proof (cnt_close p lent c). lia.
    + exact C.
Qed.

Lemma clean_weaken cfg k k' p lent : k' <= k -> clean cfg k p lent -> clean cfg k' p lent.
Proof. intros Hk [A B C]. split; auto. lia. Qed.

Lemma clean_refill cfg mk q k p0 lent p1 r : 0 <= k -> good cfg p0 lent -> clean cfg k p0 lent -> refill cfg mk q p0 = (p1, r) -> clean cfg k p1 lent.
Proof.
  intros Hk G Cl. unfold refill. destruct (len q <? min_free cfg); [|intros E; injection E as <- <-; exact Cl].
  destruct (new_conn cfg mk p0) as [p' [n|e]] eqn:En; destruct (clean_new _ _ _ _ _ _ _ Cl En) as [C1 C2]; destruct (good_new _ _ _ _ _ _ G En) as (G' & Ef & _ & Ec & Ha & Hn).
  - destruct (Hn n eq_refl) as (-> & Ha' & Hi & Hd). intros E; injection E as <- <-. replace k with (k + 1 - 1) by lia. apply clean_put; [apply (C2 _ eq_refl)|lia|rewrite Ef|rewrite Ec; exact Hd].
    intros X. apply Hi, in_or_app. left. exact X.
  - intros E; injection E as <- <-. exact C1.
Qed.

Lemma clean_lend cfg p lent c : clean cfg 1 p lent -> clean cfg 0 p (c :: lent).
Proof.
  intros [A B C]. split; auto. unfold cnt in *. cbn [filter]. destruct (alive p c); [rewrite len_cons|]; lia.
Qed.

Lemma refill_free cfg mk q p0 p1 r x : refill cfg mk q p0 = (p1, r) -> In x (free_conns p1) -> In x (free_conns p0) \/ x = p_attempts p0.
Proof.
  unfold refill. destruct (len q <? min_free cfg); [|intros E; injection E as <- <-; auto]. unfold new_conn.
  destruct (max_connections cfg <=? p_num p0); [intros E; injection E as <- <-; auto|].
  destruct (mk (p_attempts p0)); intros E; injection E as <- <-; intros Hx; [|left; exact Hx]. apply put_free_In in Hx as [->|Hx]; auto.
Qed.

Lemma clean_get cfg mk dr p lent p' r : good cfg p lent -> clean cfg 0 p lent -> get_conn cfg mk dr p = (p', r) ->
  clean cfg 0 p' (match r with Ok c => c :: lent | Raise _ => lent end).
Proof.
  intros G Cl E. destruct (p_free p) as [[|c q]|] eqn:Ef.
  - unfold get_conn in E. rewrite Ef in E. destruct (block cfg); [injection E as <- <-; exact Cl|].
    destruct (clean_new _ _ _ _ _ _ _ Cl E) as [C1 C2]. destruct r as [n|e]; [|exact C1]. apply clean_lend. exact (C2 n eq_refl).
  - rewrite (get_unfold _ _ _ _ _ _ Ef) in E. destruct (good_pop _ _ _ _ _ Ef G) as [G0 G0'].
    assert (C0 : clean cfg 1 (set_free p (Some q)) lent).
    { destruct Cl as [A B C]. unfold cnt, free_conns in *. rewrite Ef in *. split; unfold cnt, free_conns; cbn [p_free set_free p_closed p_num]; auto.
      - intros x Hx. apply A. right. exact Hx.
      - rewrite len_cons in B. change (alive (set_free p (Some q))) with (alive p). lia. }
    destruct (refill cfg mk q (set_free p (Some q))) as [p1 [u|e]] eqn:Er; pose proof (clean_refill _ _ _ 1 _ _ _ _ ltac:(lia) G0' C0 Er) as C1.
    + assert (Hc : ~ In c (free_conns p1)).
      { intros Hx. destruct (refill_free _ _ _ _ _ _ _ Er Hx) as [Hx'| ->].
        - pose proof (g_nd _ _ _ G0) as N. cbn in N, Hx'. apply NoDup_remove_2 in N. apply N, in_or_app. left. exact Hx'.
        - pose proof (g_lt _ _ _ G0 (p_attempts (set_free p (Some q)))) as L. cbn in L. rewrite in_app_iff in L. cbn in L. specialize (L ltac:(auto)). lia. }
      destruct (dropped dr p1 c); injection E as <- <-; [|apply clean_lend; exact C1].
      pose proof (clean_close_conn _ _ _ _ _ C1 Hc) as [A B C]. split; auto. unfold cnt in *. cbn [filter].
      replace (alive (add_num (close_conn p1 c) (-1)) c) with false; [lia|]. symmetry. unfold alive. apply negb_false_iff, mem_nat_In. cbn. apply in_or_app. right. left. reflexivity.
    + injection E as <- <-. apply (clean_weaken _ 1); [lia|exact C1].
  - unfold get_conn in E. rewrite Ef in E. injection E as <- <-. exact Cl.
Qed.

Lemma NoDup_app_l (a b : list nat) : NoDup (a ++ b) -> NoDup a.
Proof. induction a as [|x a IH]; intros N; [constructor|]. inversion N as [|y l Hn N']; subst. constructor; [intros Hx; apply Hn, in_or_app; left; exact Hx|auto]. Qed.
Lemma NoDup_app_r (a b : list nat) : NoDup (a ++ b) -> NoDup b.
Proof. induction a as [|x a IH]; intros N; [exact N|]. inversion N; auto. Qed.
Lemma NoDup_app_disj (a b : list nat) x : NoDup (a ++ b) -> In x a -> In x b -> False.
Proof. induction a as [|y a IH]; intros N Ha Hb; [destruct Ha|]. inversion N as [|z l Hn N']; subst. destruct Ha as [->|Ha]; [apply Hn, in_or_app; right; exact Hb|auto]. Qed.

Lemma filter_remove (f : nat -> bool) c l : NoDup l -> In c l -> f c = true -> len (filter f (remove Nat.eq_dec c l)) = len (filter f l) - 1.
Proof.
  induction l as [|x l IH]; intros N Hi Hf; [destruct Hi|]. inversion N as [|y k Hn N']; subst. cbn [remove]. destruct (Nat.eq_dec c x) as [<-|Hne].
  - cbn [filter]. rewrite Hf, notin_remove by exact Hn. rewrite len_cons. lia.
  - destruct Hi as [->|Hi]; [congruence|]. cbn [filter]. specialize (IH N' Hi Hf). destruct (f x); rewrite ?len_cons; lia.
Qed.

Lemma clean_step cfg mk s o : good cfg (s_pool s) (s_lent s) -> clean cfg 0 (s_pool s) (s_lent s) ->
  (match o with PPut c => In c (s_lent s) | _ => True end) -> (match o with PPut c => ~ In c (p_closed (s_pool s)) | _ => True end) ->
  clean cfg 0 (s_pool (fst (pstep cfg mk s o))) (s_lent (fst (pstep cfg mk s o))).
Proof.
  intros G Cl Ho Hd. destruct o as [dr|c| |c]; cbn [pstep].
  - destruct (get_conn cfg mk _ (s_pool s)) as [p r] eqn:E. cbn [fst s_pool s_lent]. exact (clean_get _ _ _ _ _ _ _ G Cl E).
  - cbn [fst s_pool s_lent]. replace 0 with (1 - 1) by lia. pose proof (g_nd _ _ _ G) as N. apply clean_put; [|lia| |exact Hd].
    + destruct Cl as [A B C]. split; auto. unfold cnt in *. rewrite filter_remove; [lia|exact (NoDup_app_r _ _ N)|exact Ho|]. apply alive_true. exact Hd.
    + intros Hi. exact (NoDup_app_disj _ _ _ N Hi Ho).
  - cbn [fst s_pool s_lent]. unfold pool_close. destruct (p_free (s_pool s)) as [q|] eqn:E; [|exact Cl]. destruct Cl as [A B C]. unfold cnt, free_conns in *. rewrite E in *.
    cbn [fst]. split; unfold cnt, free_conns; cbn [p_free p_num p_closed].
    + intros x [].
    + enough (len (filter (alive {| p_free := None; p_num := p_num (s_pool s); p_attempts := p_attempts (s_pool s); p_closed := p_closed (s_pool s) ++ q |}) (s_lent s)) <= len (filter (alive (s_pool s)) (s_lent s)))
        by (unfold len in *; cbn [length]; lia).
      apply len_filter_le. intros x. rewrite !alive_true. cbn. rewrite in_app_iff. tauto.
    + exact C.
  - exact Cl.
Qed.

Lemma clean_run cfg mk ops : forall s, good cfg (s_pool s) (s_lent s) -> clean cfg 0 (s_pool s) (s_lent s) -> lawful cfg mk s ops -> no_closed_returned cfg mk s ops ->
  clean cfg 0 (s_pool (prun cfg mk s ops)) (s_lent (prun cfg mk s ops)).
Proof.
  induction ops as [|o ops IH]; intros s G Cl L N; [exact Cl|]. destruct L as [L1 L2], N as [N1 N2]. cbn [prun].
  apply IH; [apply good_step; assumption|apply clean_step; assumption|exact L2|exact N2].
Qed.

(** ** the constructor *)
Lemma fill_ok cfg mk n : forall p p', good cfg p [] -> clean cfg 0 p [] -> p_closed p = [] -> fill cfg mk n p = Built p' ->
  good cfg p' [] /\ clean cfg 0 p' [] /\ p_closed p' = [] /\ (p_free p <> None -> p_free p' <> None) /\ len (free_conns p') = len (free_conns p) + Z.of_nat n.
Proof.
  induction n as [|n IH]; intros p p' G Cl Hc; cbn [fill]; [intros [= <-]; repeat (split; auto); lia|].
  destruct (new_conn cfg mk p) as [p1 [c|e]] eqn:En; [|discriminate].
  destruct (good_new _ _ _ _ _ _ G En) as (G1 & Ef & Efo & Ec & Ha & Hn). destruct (Hn c eq_refl) as (-> & Ha' & Hi & Hd). destruct (clean_new _ _ _ _ _ _ _ Cl En) as [_ C1].
  destruct (p_free p1) as [q|] eqn:Eq; [|discriminate]. destruct (q_full cfg q) eqn:F; [discriminate|]. intros H.
  assert (Ep : set_free p1 (Some (p_attempts p :: q)) = put_conn cfg p1 (p_attempts p)) by (unfold put_conn; rewrite Eq, F; reflexivity).
  destruct (IH (set_free p1 (Some (p_attempts p :: q))) p' ltac:(rewrite Ep; apply good_put; [exact G1|rewrite Ef; exact Hi|lia]) ltac:(rewrite Ep; replace 0 with (0 + 1 - 1) by lia; apply clean_put; [apply (C1 _ eq_refl)|lia|rewrite Ef; rewrite app_nil_r in Hi; exact Hi|rewrite Ec; exact Hd]) ltac:(cbn; congruence) H)
    as (X1 & X2 & X3 & X4 & X5). repeat (split; [assumption|]). split; [intros _; apply X4; discriminate|].
  rewrite X5. assert (Eq' : free_conns p = q) by (unfold free_conns; rewrite <- Efo; reflexivity). rewrite Eq'. unfold free_conns. cbn [p_free set_free]. rewrite len_cons. lia.
Qed.

Lemma build_ok cfg mk p : build cfg mk = Built p -> good cfg p [] /\ clean cfg 0 p [] /\ p_closed p = [] /\ p_free p <> None /\ len (free_conns p) = Z.of_nat (initial cfg).
Proof.
  intros H. apply fill_ok in H.
  - destruct H as (A & B & C & D & E). repeat (split; auto). apply D. discriminate.
  - split; cbn; [constructor|intros c []|intros c []|]. unfold len. cbn. lia.
  - split; cbn; [intros c []| |]; unfold cnt, len; cbn; lia.
  - reflexivity.
Qed.

(** ** statements *)
Lemma never_lent_twice cfg mk p ops : build cfg mk = Built p -> lawful cfg mk (start_pool p) ops ->
  let s := prun cfg mk (start_pool p) ops in
  NoDup (s_lent s) /\ NoDup (free_conns (s_pool s)) /\ (forall c, In c (free_conns (s_pool s)) -> ~ In c (s_lent s)) /\
  (0 < max_free cfg -> len (free_conns (s_pool s)) <= max_free cfg).
Proof.
  intros H L. apply build_ok in H as (G & _). cbn zeta. destruct (good_run cfg mk ops (start_pool p) G L) as [A B C D].
  split; [exact (NoDup_app_r _ _ A)|]. split; [exact (NoDup_app_l _ _ A)|]. split; [intros c Hf Hl; exact (NoDup_app_disj _ _ _ A Hf Hl)|exact D].
Qed.

Lemma open_bounded cfg mk p ops l : build cfg mk = Built p -> lawful cfg mk (start_pool p) ops -> no_closed_returned cfg mk (start_pool p) ops ->
  NoDup l -> (forall c, In c l -> is_open (prun cfg mk (start_pool p) ops) c) -> len l <= Z.max 0 (max_connections cfg).
Proof.
  intros H L N Nd Hl. apply build_ok in H as (G & Cl & _). destruct (clean_run cfg mk ops (start_pool p) G Cl L N) as [A B C].
  remember (prun cfg mk (start_pool p) ops) as s eqn:Es. enough (len l <= cnt (s_pool s) (s_lent s)) by lia. unfold cnt.
  assert (Hin : incl l (free_conns (s_pool s) ++ filter (alive (s_pool s)) (s_lent s))).
  { intros c Hc. destruct (Hl c Hc) as ([Hf|Hf] & Hp & _); apply in_or_app; [left; exact Hf|right]. apply filter_In. split; [exact Hf|apply alive_true; exact Hp]. }
  pose proof (NoDup_incl_length Nd Hin) as Hle. rewrite app_length in Hle. unfold len. lia.
Qed.
