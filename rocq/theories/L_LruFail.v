(** Lemmas behind C149. *)
From Coq Require Import Lia Sorting.Permutation.
From Verif Require Import PyBase L_PyBase PyDict L_PyDict M_Lru S_Lru L_Lru M_LruFail S_LruFail.

Lemma pass_keeps {V} (fails : nat -> V -> option exn) vs : forall log, exists a b, vs = a ++ b /\ fst (pass_all fails log vs) = log ++ a /\ (snd (pass_all fails log vs) = Ok tt -> b = []) /\ (length vs <= 1 -> b = [])%nat.
Proof.
  induction vs as [|v r IH]; intros log; cbn [pass_all]; [exists [], []; rewrite (app_nil_r log); auto|]. destruct (fails (length log) v) as [e|].
  - exists [v], r. split; [reflexivity|]. split; [reflexivity|]. split; [discriminate|]. cbn. intros L. destruct r; [reflexivity|cbn in L; lia].
  - destruct (IH (log ++ [v])) as (a & b & H1 & H2 & H3 & H4). exists (v :: a), b. rewrite H1 at 1. split; [reflexivity|]. split; [rewrite H2, <- app_assoc; reflexivity|]. split; [exact H3|]. cbn. intros L. apply H4. lia.
Qed.
Lemma set_one {K V} {E : EqDec K} mx (c : dict K V) k v : (length (snd (lru_set mx c k v)) <= 1)%nat.
Proof. unfold lru_set. destruct (mx <? _); [destruct (dset k v c) as [|(? & ?) ?]; cbn; [destruct (dget k c); cbn; lia|lia]|destruct (dget k c); cbn; lia]. Qed.

(** the container against the one of M_Lru: the same entries, and what was passed is part of what that one passes *)
Lemma f_against {K V} {E : EqDec K} mx fails (ops : list (lop K V)) : let s := f_run mx true fails ops in
  holds s = fst (lrun mx ops) /\ (exists lost, Permutation (snd (lrun mx ops)) (passed s ++ lost) /\ (clears_fine s -> lost = [])).
Proof.
  cbv zeta. unfold f_run, lrun. induction ops as [|o ops IH] using rev_ind; [cbn; split; [reflexivity|exists []; split; [reflexivity|reflexivity]]|]. rewrite !fold_left_app. cbn [fold_left]. set (s := fold_left (f_step mx true fails) ops ([], [], [])) in *. set (m := fold_left (lstep mx) ops ([], [])) in *. clearbody s m. destruct s as [[c log] tr]. destruct m as [c' lg]. destruct IH as (H & lost & P & F). unfold holds, passed, clears_fine, results in *. cbn [fst snd] in *. subst c'.
  assert (Fin : forall r, (forall e, ~ In (LClear, Raise e) (tr ++ [(o, r)])) -> lost = []) by (intros r Q; apply F; intros e I; apply (Q e), in_or_app; left; exact I).
  destruct o as [k|k v|k|]; unfold f_step; cbn [f_do lstep fst snd].
  - destruct (lru_get c k) as [c1 r]. cbn [fst snd]. split; [reflexivity|]. exists lost. split; [exact P|apply Fin].
  - pose proof (set_one mx c k v) as O. destruct (lru_set mx c k v) as [c1 d]. cbn [snd] in O. destruct (pass_keeps fails d log) as (a & b & H1 & H2 & _ & H4). rewrite (H4 O), app_nil_r in H1. subst a. destruct (pass_all fails log d) as [log1 r]. cbn [fst snd] in *. subst log1. split; [reflexivity|]. exists lost. split; [rewrite P, <- !app_assoc; apply Permutation_app_head, Permutation_app_comm|apply Fin].
  - unfold lru_del. destruct (dget k c) as [v|]; cbn [fst snd]; [|split; [reflexivity|exists lost; rewrite app_nil_r; split; [exact P|apply Fin]]]. destruct (pass_keeps fails [v] log) as (a & b & H1 & H2 & _ & H4). rewrite (H4 (le_n 1)), app_nil_r in H1. subst a. destruct (pass_all fails log [v]) as [log1 r]. cbn [fst snd] in *. subst log1. split; [reflexivity|]. exists lost. split; [rewrite P, <- !app_assoc; apply Permutation_app_head, Permutation_app_comm|apply Fin].
  - unfold lru_clear. destruct (pass_keeps fails (vals c) log) as (a & b & H1 & H2 & H3 & _). destruct (pass_all fails log (vals c)) as [log1 r]. cbn [fst snd] in *. subst log1. split; [reflexivity|]. exists (b ++ lost). split.
    + rewrite P, H1. rewrite <- !app_assoc. apply Permutation_app_head. rewrite Permutation_app_comm, <- app_assoc. reflexivity.
    + intros Q. rewrite (Fin r Q), app_nil_r. apply H3. destruct r as [[]|e]; [reflexivity|]. exfalso. apply (Q e), in_or_app. right. left. reflexivity.
Qed.
Lemma kept (K V : Type) (E : EqDec K) mx fails (ops : list (lop K V)) : holds (f_run mx true fails ops) = holds (f_run mx true (fun _ _ => None) ops).
Proof. now rewrite (proj1 (f_against mx fails ops)), (proj1 (f_against mx (fun _ _ => None) ops)). Qed.
Lemma at_most (K V : Type) (E : EqDec K) mx fails (ops : list (lop K V)) : exists lost, Permutation (stored ops) (vals (holds (f_run mx true fails ops)) ++ passed (f_run mx true fails ops) ++ lost).
Proof. destruct (f_against mx fails ops) as (H & lost & P & _). exists lost. rewrite (lru_disposed mx ops), H. apply Permutation_app_head, P. Qed.
Lemma exactly (K V : Type) (E : EqDec K) mx fails (ops : list (lop K V)) : clears_fine (f_run mx true fails ops) -> Permutation (stored ops) (vals (holds (f_run mx true fails ops)) ++ passed (f_run mx true fails ops)).
Proof. intros Q. destruct (f_against mx fails ops) as (H & lost & P & F). rewrite (F Q), app_nil_r in P. rewrite (lru_disposed mx ops), H. apply Permutation_app_head, P. Qed.

Lemma pass_stops {V} (fails : nat -> V -> option exn) v b e : forall a log, (forall i w, nth_error a i = Some w -> fails (length log + i)%nat w = None) -> fails (length log + length a)%nat v = Some e -> pass_all fails log (a ++ v :: b) = (log ++ a ++ [v], Raise e).
Proof.
  induction a as [|x a IH]; intros log A F; cbn [app pass_all].
  - cbn in F. rewrite Nat.add_0_r in F. now rewrite F.
  - pose proof (A 0%nat x eq_refl) as A0. rewrite Nat.add_0_r in A0. rewrite A0. rewrite IH; [now rewrite <- app_assoc| |].
    + intros i w I. rewrite app_length. cbn [length]. replace (length log + 1 + i)%nat with (length log + S i)%nat by lia. apply A. exact I.
    + rewrite app_length. cbn [length] in *. replace (length log + 1 + length a)%nat with (length log + S (length a))%nat by lia. exact F.
Qed.
Lemma f_snoc {K V} {E : EqDec K} mx has fails (ops : list (lop K V)) o : f_run mx has fails (ops ++ [o]) = f_step mx has fails (f_run mx has fails ops) o.
Proof. unfold f_run. now rewrite fold_left_app. Qed.
Lemma clear_loses (K V : Type) (E : EqDec K) mx fails (ops : list (lop K V)) a v b e : let s := f_run mx true fails ops in
  vals (holds s) = a ++ v :: b -> (forall i w, nth_error a i = Some w -> fails (length (passed s) + i)%nat w = None) -> fails (length (passed s) + length a)%nat v = Some e ->
  let s1 := f_run mx true fails (ops ++ [LClear]) in
  holds s1 = [] /\ passed s1 = passed s ++ a ++ [v] /\ In (LClear, Raise e) (results s1) /\ (clears_fine s -> Permutation (stored (ops ++ [LClear])) (passed s1 ++ b)).
Proof.
  cbv zeta. intros Vs A F. pose proof (exactly K V E mx fails ops) as X. rewrite f_snoc. destruct (f_run mx true fails ops) as [[c log] tr]. unfold holds, passed, results, clears_fine in *. cbn [fst snd] in *. unfold f_step. cbn [f_do]. unfold lru_clear. rewrite Vs, (pass_stops fails v b e a log A F). cbn [fst snd]. split; [reflexivity|]. split; [reflexivity|]. split; [apply in_or_app; right; left; reflexivity|].
  intros Q. specialize (X Q). assert (St : stored (ops ++ [LClear]) = stored ops) by (rewrite stored_snoc; apply app_nil_r). rewrite St, X, Vs. rewrite Permutation_app_comm. rewrite <- !app_assoc. reflexivity.
Qed.
(** what the caller of an operation that takes out one value gets *)
Lemma caller (K V : Type) (E : EqDec K) mx fails (c : dict K V) log o v : (exists k w, o = LSet k w /\ snd (lru_set mx c k w) = [v]) \/ (exists k, o = LDel k /\ dget k c = Some v) ->
  snd (fst (f_do mx true fails c log o)) = log ++ [v] /\ snd (f_do mx true fails c log o) = match fails (length log) v with Some e => Raise e | None => Ok tt end.
Proof.
  intros [(k & w & -> & H)|(k & -> & H)]; cbn [f_do].
  - destruct (lru_set mx c k w) as [c1 d]. cbn [snd] in H. subst d. cbn [pass_all]. destruct (fails (length log) v); split; reflexivity.
  - unfold lru_del. rewrite H. cbn [pass_all]. destruct (fails (length log) v); split; reflexivity.
Qed.
Lemma without (K V : Type) (E : EqDec K) mx fails (ops : list (lop K V)) : passed (f_run mx false fails ops) = [] /\ holds (f_run mx false fails ops) = holds (f_run mx true fails ops) /\ clears_fine (f_run mx false fails ops).
Proof.
  rewrite (proj1 (f_against mx fails ops)). unfold f_run, lrun, holds, passed, clears_fine, results. induction ops as [|o ops IH] using rev_ind; [cbn; auto|]. rewrite !fold_left_app. cbn [fold_left]. set (s := fold_left (f_step mx false fails) ops ([], [], [])) in *. set (m := fold_left (lstep mx) ops ([], [])) in *. clearbody s m. destruct s as [[c log] tr]. destruct m as [c' lg]. cbn [fst snd] in *. destruct IH as (H1 & H2 & H3). subst log c'.
  assert (Fin : forall x r, x <> LClear \/ r = Ok tt -> forall e, ~ In (LClear, Raise e) (tr ++ [(x, r)])) by (intros x r N e I; apply in_app_or in I as [I|[I|[]]]; [exact (H3 e I)|injection I as -> ->; destruct N as [N|N]; [now apply N|discriminate N]]).
  destruct o as [k|k v|k|]; unfold f_step; cbn [f_do lstep fst snd].
  - destruct (lru_get c k) as [c1 r]. cbn [fst snd]. split; [reflexivity|split; [reflexivity|apply Fin; left; discriminate]].
  - destruct (lru_set mx c k v) as [c1 d]. cbn [fst snd]. split; [reflexivity|split; [reflexivity|apply Fin; left; discriminate]].
  - unfold lru_del. destruct (dget k c); cbn [fst snd]; (split; [reflexivity|split; [reflexivity|apply Fin; left; discriminate]]).
  - unfold lru_clear. cbn [fst snd]. split; [reflexivity|split; [reflexivity|apply Fin; right; reflexivity]].
Qed.
