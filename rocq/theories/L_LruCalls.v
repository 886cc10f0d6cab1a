(** Lemmas behind C150. *)
From Coq Require Import Lia.
From Verif Require Import PyBase L_PyBase PyDict L_PyDict M_Lru M_LruMap S_LruMap L_LruMap M_LruCalls S_LruCalls.

Lemma put_nth {A} (x : A) : forall l i j, nth_error (put_at i x l) j = if Nat.eq_dec j i then match nth_error l j with Some _ => Some x | None => None end else nth_error l j.
Proof.
  induction l as [|y l IH]; intros i j; [destruct i, j; cbn [put_at nth_error]; destruct (Nat.eq_dec _ _); reflexivity|].
  destruct i as [|i], j as [|j]; cbn [put_at nth_error]; try (destruct (Nat.eq_dec _ _); [try discriminate|try congruence]; reflexivity). rewrite IH. destruct (Nat.eq_dec j i), (Nat.eq_dec (S j) (S i)); try reflexivity; exfalso; congruence.
Qed.
(** how many entries the threads may still add *)
Definition adds {K V} (t : tat K V) : Z := match t with At (TSetdefault _ _) | Setting _ _ => 1 | _ => 0 end.
Fixpoint pend {K V} (l : list (tat K V)) : Z := match l with [] => 0 | t :: r => adds t + pend r end.
Lemma adds_pos {K V} (t : tat K V) : 0 <= adds t. Proof. destruct t as [[]| | |]; cbn; lia. Qed.
Lemma pend_put {K V} (x : tat K V) : forall l i t, nth_error l i = Some t -> pend (put_at i x l) = pend l - adds t + adds x.
Proof. induction l as [|y l IH]; intros [|i] t H; cbn in *; try discriminate H; [injection H as ->; lia|]. rewrite (IH i t H). lia. Qed.
Lemma pend_at {K V} : forall l i (t : tat K V), nth_error l i = Some t -> adds t <= pend l.
Proof. induction l as [|y l IH]; intros [|i] t H; cbn in *; try discriminate H. - injection H as ->. assert (0 <= pend l) by (clear; induction l as [|z l IH]; cbn; [lia|pose proof (adds_pos z); lia]). lia. - pose proof (IH i t H). pose proof (adds_pos y). lia. Qed.
Lemma pend_start {K V} (l : list (tcall K V)) : pend (map At l) <= len l.
Proof. unfold len. induction l as [|[] l IH]; cbn [map pend adds length]; lia. Qed.

(** where a thread with call [o] can be, when [h0] was the entry of its key at the beginning and [h] is it now *)
Definition fits {K V} (o : tcall K V) (h0 h : option V) (t : tat K V) : Prop :=
  match t with
  | At o1 => o1 = o /\ h = h0
  | Setting k v => o = TSetdefault k v /\ h0 = None /\ h = None
  | Deleting k v => o = TPop k /\ h0 = Some v /\ h = Some v
  | Gave r => r = alone_result o h0 /\ h = alone_after o h0
  end.
Lemma t_steps {K V} {E : EqDec K} mx (c : dict K V) t o h0 : wf_dict c -> fits o h0 (dget (key_of o) c) t -> (adds t = 1 -> len c < mx) ->
  let c1 := fst (fst (t_step mx c t)) in let t1 := snd (t_step mx c t) in
  wf_dict c1 /\ fits o h0 (dget (key_of o) c1) t1 /\ (forall x, x <> key_of o -> dget x c1 = dget x c) /\ len c1 + adds t1 <= len c + adds t.
Proof.
  cbv zeta. intros W F R. assert (G : forall k, same_entries c (fst (lru_get c k)) /\ wf_dict (fst (lru_get c k)) /\ len (fst (lru_get c k)) = len c) by (intros k; destruct (get_entries c k W) as (A & B & C); unfold len; rewrite C; auto).
  destruct t as [[k|k v|k]|k v|k v|r]; cbn [fits] in F; cbn [t_step].
  1-3: destruct F as (<- & F); cbn [key_of] in *; destruct (G k) as (S & W1 & L1); pose proof (get_gives c k) as Q; destruct (lru_get c k) as [c1 r]; cbn [fst snd] in *; rewrite F in Q; pose proof (S k) as Sk; destruct h0 as [w|]; subst r; cbn [fst snd fits alone_result alone_after adds key_of]; rewrite ?Sk, ?F, L1; (split; [exact W1|]); (split; [auto|]); (split; [intros x _; apply S|lia]).
  - destruct F as (-> & -> & F). cbn [key_of] in *. rewrite (set_room mx c k v F (R eq_refl)). cbn [fst snd fits adds alone_result alone_after]. split; [apply wf_dset, W|]. split; [split; [reflexivity|apply dget_dset_same]|]. split; [intros x N; apply dget_dset_other, N|]. unfold len. rewrite length_dset. unfold dmem. rewrite F. lia.
  - destruct F as (-> & -> & F). cbn [key_of] in *. unfold lru_del. rewrite F. cbn [fst snd fits adds alone_result alone_after bind]. split; [apply wf_ddel, W|]. split; [split; [reflexivity|apply dget_ddel_same, W]|]. split; [intros x N; apply dget_ddel_other, N|]. unfold len. rewrite length_ddel. destruct (dmem k c); lia.
  - cbn [fst snd fits adds]. split; [exact W|]. split; [exact F|]. split; [reflexivity|lia].
Qed.
Definition xinv {K V} {E : EqDec K} mx (c0 : dict K V) (l : list (tcall K V)) (s : calls K V) : Prop :=
  wf_dict (x_held s) /\ len (x_held s) + pend (x_at s) <= mx /\ (forall i t, nth_error (x_at s) i = Some t -> exists o, nth_error l i = Some o /\ fits o (dget (key_of o) c0) (dget (key_of o) (x_held s)) t).
Lemma xinv_step {K V} {E : EqDec K} mx (c0 : dict K V) l s i : NoDup (map key_of l) -> xinv mx c0 l s -> xinv mx c0 l (x_step mx s i).
Proof.
  intros N (W & L & F). unfold x_step. destruct (nth_error (x_at s) i) as [t|] eqn:T; [|exact (conj W (conj L F))]. destruct (F i t T) as (o & O & Ft). pose proof (pend_at _ _ _ T) as Pa.
  destruct (t_steps mx (x_held s) t o _ W Ft ltac:(intros A; lia)) as (W1 & F1 & S1 & L1). destruct (t_step mx (x_held s) t) as [[c1 d] t1]. cbn [fst snd] in *. split; [exact W1|]. split; [cbn [x_held x_at]; rewrite (pend_put t1 _ i t T); lia|].
  cbn [x_held x_at]. intros j u. rewrite put_nth. destruct (Nat.eq_dec j i) as [->|D]; [rewrite T; intros [= <-]; exists o; auto|]. intros U. destruct (F j u U) as (o2 & O2 & F2). exists o2. split; [exact O2|]. rewrite S1; [exact F2|].
  intros Q. apply D. apply (proj1 (NoDup_nth_error (map key_of l)) N); [rewrite map_length; apply nth_error_Some; congruence|]. rewrite (map_nth_error key_of j l O2), (map_nth_error key_of i l O). now rewrite Q.
Qed.
Lemma xinv_run {K V} {E : EqDec K} mx (c0 : dict K V) l sched : wf_dict c0 -> NoDup (map key_of l) -> len c0 + len l <= mx -> xinv mx c0 l (x_run mx c0 l sched).
Proof.
  intros W N L. unfold x_run. assert (I : xinv mx c0 l (Build_calls c0 [] (map At l))).
  { split; [exact W|]. split; [pose proof (pend_start l); cbn [x_held x_at]; lia|]. cbn [x_held x_at]. intros i t H. rewrite nth_error_map in H. destruct (nth_error l i) as [o|]; [|discriminate H]. injection H as <-. exists o. split; [reflexivity|]. split; reflexivity. }
  generalize (Build_calls c0 [] (map At l)), I. clear I. induction sched as [|i sched IH]; intros s I; [exact I|]. cbn [fold_left]. apply IH, xinv_step; assumption.
Qed.
Lemma as_alone (K V : Type) (E : EqDec K) mx (c0 : dict K V) l sched i o r : wf_dict c0 -> NoDup (map key_of l) -> len c0 + len l <= mx -> nth_error l i = Some o -> nth_error (x_at (x_run mx c0 l sched)) i = Some (Gave r) ->
  r = alone_result o (dget (key_of o) c0) /\ dget (key_of o) (x_held (x_run mx c0 l sched)) = alone_after o (dget (key_of o) c0).
Proof. intros W N L O T. destruct (xinv_run mx c0 l sched W N L) as (_ & _ & F). destruct (F i _ T) as (o' & O' & Q). rewrite O in O'. injection O' as <-. exact Q. Qed.
(** ** Two threads with the same key *)
Lemma step_eq {K V} {E : EqDec K} mx c ds ts i t c1 d (t1 : tat K V) : nth_error ts i = Some t -> t_step mx c t = (c1, d, t1) -> x_step mx (Build_calls c ds ts) i = Build_calls c1 (ds ++ d) (put_at i t1 ts).
Proof. intros T S. unfold x_step. cbn [x_at x_held x_disposed]. now rewrite T, S. Qed.
Lemma both_set (K V : Type) (E : EqDec K) mx (c0 : dict K V) k v w : dget k c0 = None -> len c0 < mx -> let s := x_run mx c0 [TSetdefault k v; TSetdefault k w] [0; 1; 0; 1]%nat in
  x_at s = [Gave (Ok (Some v)); Gave (Ok (Some w))] /\ x_disposed s = [v] /\ dget k (x_held s) = Some w.
Proof.
  intros D L. cbv zeta. assert (Ask : forall u, t_step mx c0 (At (TSetdefault k u)) = (c0, [], Setting k u)) by (intros u; cbn [t_step]; unfold lru_get; now rewrite D).
  assert (S1 : t_step mx c0 (Setting k v) = (dset k v c0, [], Gave (Ok (Some v)))) by (cbn [t_step]; now rewrite (set_room mx c0 k v D L)).
  assert (S2 : t_step mx (dset k v c0) (Setting k w) = (dset k w (dset k v c0), [v], Gave (Ok (Some w)))).
  { cbn [t_step]. unfold lru_set. rewrite dget_dset_same. assert (X : mx <? len (dset k w (dset k v c0)) = false) by (apply Z.ltb_ge; unfold len in *; rewrite !length_dset; unfold dmem; rewrite dget_dset_same, D; lia). now rewrite X. }
  unfold x_run. cbn [fold_left map].
  rewrite (step_eq mx c0 _ [At (TSetdefault k v); At (TSetdefault k w)] 0 _ _ _ _ eq_refl (Ask v)). cbn [put_at app].
  rewrite (step_eq mx c0 _ [Setting k v; At (TSetdefault k w)] 1 _ _ _ _ eq_refl (Ask w)). cbn [put_at app].
  rewrite (step_eq mx c0 _ [Setting k v; Setting k w] 0 _ _ _ _ eq_refl S1). cbn [put_at app].
  rewrite (step_eq mx _ _ [Gave (Ok (Some v)); Setting k w] 1 _ _ _ _ eq_refl S2). cbn [put_at app x_at x_disposed x_held]. split; [reflexivity|]. split; [reflexivity|apply dget_dset_same].
Qed.
Lemma both_pop (K V : Type) (E : EqDec K) mx (c0 : dict K V) k v : wf_dict c0 -> dget k c0 = Some v -> x_at (x_run mx c0 [TPop k; TPop k] [0; 1; 0; 1]%nat) = [Gave (Ok (Some v)); Gave (Raise KeyError)].
Proof.
  intros W D. assert (Ask : forall c : dict K V, dget k c = Some v -> t_step mx c (At (TPop k)) = (fst (lru_get c k), [], Deleting k v)) by (intros c Q; cbn [t_step]; unfold lru_get; now rewrite Q).
  destruct (get_entries c0 k W) as (S1 & W1 & _). set (c1 := fst (lru_get c0 k)) in *. assert (D1 : dget k c1 = Some v) by (rewrite (S1 k); exact D). destruct (get_entries c1 k W1) as (S2 & W2 & _). set (c2 := fst (lru_get c1 k)) in *. assert (D2 : dget k c2 = Some v) by (rewrite (S2 k); exact D1).
  assert (A1 : t_step mx c2 (Deleting k v) = (ddel k c2, [v], Gave (Ok (Some v)))) by (cbn [t_step]; unfold lru_del; now rewrite D2).
  assert (A2 : t_step mx (ddel k c2) (Deleting k v) = (ddel k c2, [], Gave (Raise KeyError))) by (cbn [t_step]; unfold lru_del; now rewrite (dget_ddel_same k c2 W2)).
  unfold x_run. cbn [fold_left map].
  rewrite (step_eq mx c0 _ [At (TPop k); At (TPop k)] 0 _ _ _ _ eq_refl (Ask c0 D)). cbn [put_at app]. fold c1.
  rewrite (step_eq mx c1 _ [Deleting k v; At (TPop k)] 1 _ _ _ _ eq_refl (Ask c1 D1)). cbn [put_at app]. fold c2.
  rewrite (step_eq mx c2 _ [Deleting k v; Deleting k v] 0 _ _ _ _ eq_refl A1). cbn [put_at app].
  rewrite (step_eq mx _ _ [Gave (Ok (Some v)); Deleting k v] 1 _ _ _ _ eq_refl A2). reflexivity.
Qed.
(** ** All calls end, and the size is kept *)
Definition rank {K V} (t : tat K V) : nat := match t with At _ => 2 | Setting _ _ | Deleting _ _ => 1 | Gave _ => 0 end.
Lemma rank_step {K V} {E : EqDec K} mx (c : dict K V) t : (rank (snd (t_step mx c t)) <= rank t - 1)%nat.
Proof. destruct t as [[k|k v|k]|k v|k v|r]; cbn [t_step]; try (destruct (lru_get c k) as [c1 [?|?]]; cbn; lia); [destruct (lru_set mx c k v); cbn; lia|destruct (lru_del c k) as [[? ?] ?]; cbn; lia|cbn; lia]. Qed.
Lemma rank_run {K V} {E : EqDec K} mx i : forall sched (s : calls K V) t, nth_error (x_at s) i = Some t -> exists t1, nth_error (x_at (fold_left (x_step mx) sched s)) i = Some t1 /\ (rank t1 <= rank t - count_occ Nat.eq_dec sched i)%nat.
Proof.
  induction sched as [|j sched IH]; intros s t T; cbn [fold_left count_occ]; [exists t; split; [exact T|lia]|].
  assert (N : exists u, nth_error (x_at (x_step mx s j)) i = Some u /\ (rank u <= rank t - if Nat.eq_dec j i then 1 else 0)%nat).
  { unfold x_step. destruct (nth_error (x_at s) j) as [w|] eqn:J.
    - pose proof (rank_step mx (x_held s) w) as R. destruct (t_step mx (x_held s) w) as [[c1 d] t1]. cbn [x_at snd] in *. rewrite put_nth. destruct (Nat.eq_dec i j) as [->|D].
      + rewrite J. exists t1. destruct (Nat.eq_dec j j); [|congruence]. assert (w = t) by congruence. subst w. auto.
      + exists t. destruct (Nat.eq_dec j i); [congruence|]. split; [exact T|lia].
    - exists t. destruct (Nat.eq_dec j i) as [->|]; [congruence|]. split; [exact T|lia]. }
  destruct N as (u & U & R). destruct (IH _ u U) as (t1 & T1 & R1). exists t1. split; [exact T1|]. destruct (Nat.eq_dec j i); lia.
Qed.
Lemma all_end (K V : Type) (E : EqDec K) mx (c0 : dict K V) l sched i o : nth_error l i = Some o -> (2 <= count_occ Nat.eq_dec sched i)%nat -> exists r, nth_error (x_at (x_run mx c0 l sched)) i = Some (Gave r).
Proof.
  intros O C. unfold x_run. destruct (rank_run mx i sched (Build_calls c0 [] (map At l)) (At o) (map_nth_error At i l O)) as (t1 & T & R). cbn [rank] in R. destruct t1 as [?| | |r]; cbn [rank] in R; try lia. exists r. exact T.
Qed.
Lemma size_kept (K V : Type) (E : EqDec K) mx (c0 : dict K V) l sched : 0 <= mx -> wf_dict c0 -> len c0 <= mx -> len (x_held (x_run mx c0 l sched)) <= mx /\ wf_dict (x_held (x_run mx c0 l sched)).
Proof.
  intros M W L. unfold x_run. assert (I : len (x_held (Build_calls c0 [] (map At l))) <= mx /\ wf_dict (x_held (Build_calls c0 [] (map At l)))) by (split; assumption).
  generalize dependent (Build_calls c0 [] (map (@At K V) l)). induction sched as [|i sched IH]; intros s (Ls & Ws); [split; assumption|]. cbn [fold_left]. apply IH. unfold x_step. destruct (nth_error (x_at s) i) as [t|]; [|split; assumption].
  assert (G : forall k, len (fst (lru_get (x_held s) k)) <= mx /\ wf_dict (fst (lru_get (x_held s) k))) by (intros k; destruct (get_entries (x_held s) k Ws) as (_ & W1 & L1); unfold len in *; rewrite L1; auto).
  destruct t as [[k|k v|k]|k v|k v|r]; cbn [t_step].
  1-3: specialize (G k); destruct (lru_get (x_held s) k) as [c1 [?|?]]; exact G.
  - pose proof (set_size mx (x_held s) k v Ws M Ls) as Q. destruct (lru_set mx (x_held s) k v) as [c1 d]. exact Q.
  - unfold lru_del. destruct (dget k (x_held s)); cbn [x_held]; [|split; assumption]. split; [unfold len in *; rewrite length_ddel; destruct (dmem k (x_held s)); lia|apply wf_ddel, Ws].
  - split; assumption.
Qed.
(** ** Any calls at the same time *)
Lemma set_entries {K V} {E : EqDec K} mx (c : dict K V) k v x u : wf_dict c -> dget x (fst (lru_set mx c k v)) = Some u -> (x = k /\ u = v) \/ dget x c = Some u.
Proof.
  intros W. assert (A : dget x (dset k v c) = Some u -> (x = k /\ u = v) \/ dget x c = Some u) by (rewrite dget_dset; destruct (eq_dec x k); [intros [= <-]; left; auto|auto]).
  pose proof (wf_dset k v c W) as W1. unfold lru_set. destruct (mx <? _); [|exact A]. destruct (dset k v c) as [|(k0, v0) c2]; [exact A|]. cbn [fst]. intros D. apply A. cbn. destruct (eq_dec x k0) as [->|]; [|exact D].
  exfalso. unfold wf_dict in W1. cbn in W1. inversion W1 as [|? ? N _]; subst. apply N. destruct (in_dec (fun a b => eq_dec a b) k0 (keys c2)) as [I|I]; [exact I|]. apply dget_None in I. congruence.
Qed.
Definition sane {K V} {E : EqDec K} (c0 : dict K V) l (o : tcall K V) (t : tat K V) : Prop :=
  match t with At o1 => o1 = o | Setting k v => o = TSetdefault k v | Deleting k v => o = TPop k /\ comes_from c0 l k v | Gave r => sensible c0 l o r end.
Lemma sane_step {K V} {E : EqDec K} mx (c0 : dict K V) l (c : dict K V) t o : wf_dict c -> In o l -> (forall k v, dget k c = Some v -> comes_from c0 l k v) -> sane c0 l o t ->
  let c1 := fst (fst (t_step mx c t)) in wf_dict c1 /\ (forall k v, dget k c1 = Some v -> comes_from c0 l k v) /\ sane c0 l o (snd (t_step mx c t)).
Proof.
  cbv zeta. intros W I H S. destruct t as [[k|k v|k]|k v|k v|r]; cbn [sane] in S; cbn [t_step].
  1-3: subst o; destruct (get_entries c k W) as (Se & W1 & _); pose proof (get_gives c k) as G; assert (H1 : forall k0 v0, dget k0 (fst (lru_get c k)) = Some v0 -> comes_from c0 l k0 v0) by (intros k0 v0 D; apply H; rewrite <- (Se k0); exact D); pose proof (H k) as Hk; destruct (lru_get c k) as [c1 r]; cbn [fst snd] in *; destruct (dget k c) as [w|]; subst r; cbn [fst snd sane sensible key_of]; (split; [exact W1|split; [exact H1|]]); auto; try (intros; discriminate).
  - subst o. pose proof (set_entries mx c k v) as Q. assert (W1 : wf_dict (fst (lru_set mx c k v))).
    { pose proof (wf_dset k v c W) as Wd. unfold lru_set. destruct (mx <? _); [|exact Wd]. destruct (dset k v c) as [|(k0, v0) c2]; [exact Wd|]. cbn [fst]. unfold wf_dict in *. cbn in Wd. now inversion Wd. }
    destruct (lru_set mx c k v) as [c1 d]. cbn [fst snd] in *. split; [exact W1|]. split; [intros x u D; destruct (Q x u W D) as [(-> & ->)|D1]; [right; exact I|exact (H x u D1)]|]. right. exact I.
  - destruct S as (-> & Cv). unfold lru_del. destruct (dget k c); cbn [fst snd sane bind]; [|split; [exact W|split; [exact H|split; reflexivity]]]. split; [apply wf_ddel, W|]. split; [|exact Cv]. intros x u D. apply H. destruct (eq_dec x k) as [->|N]; [rewrite (dget_ddel_same k c W) in D; discriminate D|rewrite dget_ddel_other in D by exact N; exact D].
  - cbn [fst snd]. auto.
Qed.
Lemma any_calls (K V : Type) (E : EqDec K) mx (c0 : dict K V) l sched : wf_dict c0 ->
  (forall i o r, nth_error l i = Some o -> nth_error (x_at (x_run mx c0 l sched)) i = Some (Gave r) -> sensible c0 l o r) /\ (forall k v, dget k (x_held (x_run mx c0 l sched)) = Some v -> comes_from c0 l k v).
Proof.
  intros W. set (J := fun s : calls K V => wf_dict (x_held s) /\ (forall k v, dget k (x_held s) = Some v -> comes_from c0 l k v) /\ forall i t, nth_error (x_at s) i = Some t -> exists o, nth_error l i = Some o /\ sane c0 l o t).
  assert (Q : J (x_run mx c0 l sched)).
  { unfold x_run. assert (I : J (Build_calls c0 [] (map At l))).
    { split; [exact W|]. split; [intros k v D; left; exact D|]. cbn [x_at]. intros i t T. rewrite nth_error_map in T. destruct (nth_error l i) as [o|]; [|discriminate T]. injection T as <-. exists o. split; reflexivity. }
    generalize (Build_calls c0 [] (map (@At K V) l)), I. clear I. induction sched as [|i sched IH]; intros s I; [exact I|]. cbn [fold_left]. apply IH. destruct I as (Ws & Hs & Fs). unfold x_step. destruct (nth_error (x_at s) i) as [t|] eqn:T; [|exact (conj Ws (conj Hs Fs))].
    destruct (Fs i t T) as (o & O & So). destruct (sane_step mx c0 l (x_held s) t o Ws (nth_error_In _ _ O) Hs So) as (W1 & H1 & S1). destruct (t_step mx (x_held s) t) as [[c1 d] t1]. cbn [fst snd] in *. split; [exact W1|]. split; [exact H1|].
    cbn [x_at]. intros j u. rewrite put_nth. destruct (Nat.eq_dec j i) as [->|D]; [rewrite T; intros [= <-]; exists o; auto|apply Fs]. }
  destruct Q as (_ & H & F). split; [|exact H]. intros i o r O T. destruct (F i _ T) as (o1 & O1 & S). rewrite O in O1. injection O1 as <-. exact S.
Qed.
