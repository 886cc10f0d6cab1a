(** Lemmas behind C90: several threads remove one name from the service map. *)
From Coq Require Import Strings.String Lia.
From Verif Require Import PyBase L_PyBase PyDict L_PyDict PyInt M_RpcId M_Mesh S_Mesh M_AioServer L_AioServer2 M_Threads S_Threads L_Threads.
Open Scope nat_scope.

Lemma mwf_step i s : wf_dict (ms_map s) -> wf_dict (ms_map (map_step i s)).
Proof.
  intros W. unfold map_step. destruct (nth_error (ms_threads s) i) as [[[k v|k]|k v|r]|]; try exact W; cbn [ms_map].
  - destruct (dmem k (ms_map s)); exact W.
  - unfold imm_pop. destruct (dget k (ms_map s)); [apply wf_ddel|]; exact W.
  - apply wf_dset. exact W.
Qed.
(** the threads that remove k: nobody has got it, or one has *)
Definition removing (d : service_map) (ops : list mapop) (k : pystr) (s : mst) : Prop :=
  match dget k d with
  | Some v =>
      (dget k (ms_map s) = Some v /\ forall j, nth_error ops j = Some (Remove k) -> nth_error (ms_threads s) j = Some (MCall (Remove k))) \/
      (dget k (ms_map s) = None /\ exists i, nth_error ops i = Some (Remove k) /\ nth_error (ms_threads s) i = Some (MDone (Ok tt)) /\
        forall j, j <> i -> nth_error ops j = Some (Remove k) -> nth_error (ms_threads s) j = Some (MCall (Remove k)) \/ nth_error (ms_threads s) j = Some (MDone (Raise KeyError)))
  | None => dget k (ms_map s) = None /\ forall j, nth_error ops j = Some (Remove k) -> nth_error (ms_threads s) j = Some (MCall (Remove k)) \/ nth_error (ms_threads s) j = Some (MDone (Raise KeyError))
  end.
Lemma removing_step d ops k i s : (forall v, ~ In (Assign k v) ops) -> mok ops s -> wf_dict (ms_map s) -> removing d ops k s -> removing d ops k (map_step i s).
Proof.
  intros N M W R.
  (* a step of a thread that does not remove k *)
  assert (Oth : nth_error (ms_threads s) i <> Some (MCall (Remove k)) -> dget k (ms_map (map_step i s)) = dget k (ms_map s) /\
     forall j p, nth_error ops j = Some (Remove k) -> nth_error (ms_threads s) j = Some p -> nth_error (ms_threads (map_step i s)) j = Some p).
  { intros Ni. assert (Other : forall j p q d', nth_error ops j = Some (Remove k) -> nth_error (ms_threads s) j = Some p -> (exists k1 v, nth_error (ms_threads s) i = Some (MCall (Assign k1 v)) \/ nth_error (ms_threads s) i = Some (MStore k1 v) \/ (nth_error (ms_threads s) i = Some (MCall (Remove k1)) /\ k1 <> k)) ->
      nth_error (ms_threads {| ms_map := d'; ms_threads := upd i (fun _ => q) (ms_threads s) |}) j = Some p).
    { intros j p q d' Hj Hp (k1 & v & Hc). cbn. rewrite nth_upd_other; [exact Hp|]. intros ->. pose proof (fun x Hx => proj2 M j x _ Hx Hj) as F.
      destruct Hc as [Hc|[Hc|(Hc & Nk)]]; specialize (F _ Hc); cbn in F; try discriminate. injection F as ->. exact (Nk eq_refl). }
    unfold map_step. destruct (nth_error (ms_threads s) i) as [[[k1 v|k1]|k1 v|r]|] eqn:E; try (split; [reflexivity|intros j p _ Hp; exact Hp]).
    - destruct (dmem k1 (ms_map s)); (split; [reflexivity|intros j p Hj Hp; apply Other; eauto]).
    - assert (Nk : k1 <> k) by (intros ->; exact (Ni eq_refl)). split; [|intros j p Hj Hp; apply Other; [exact Hj|exact Hp|]; exists k1, (Host []); auto].
      cbn [ms_map]. unfold imm_pop. destruct (dget k1 (ms_map s)); [cbn [fst]; apply dget_ddel_other; congruence|reflexivity].
    - assert (Nk : k1 <> k).
      { intros ->. destruct (nth_error ops i) as [o|] eqn:Eo; [|apply nth_error_None in Eo; assert (H : nth_error (ms_threads s) i <> None) by congruence; apply nth_error_Some in H; destruct M as (M & _); lia].
        pose proof (proj2 M i _ o E Eo) as F. cbn in F. subst o. exact (N v (nth_error_In _ _ Eo)). }
      split; [cbn [ms_map]; apply dget_dset_other; congruence|]. intros j p Hj Hp. apply Other; [exact Hj|exact Hp|]. exists k1, v. auto. }
  (* a step of a thread that removes k *)
  assert (Own : nth_error (ms_threads s) i = Some (MCall (Remove k)) -> nth_error ops i = Some (Remove k)).
  { intros E. destruct (nth_error ops i) as [o|] eqn:Eo; [|apply nth_error_None in Eo; assert (H : nth_error (ms_threads s) i <> None) by congruence; apply nth_error_Some in H; destruct M as (M & _); lia].
    pose proof (proj2 M i _ o E Eo) as F. cbn in F. congruence. }
  assert (Go : nth_error (ms_threads s) i = Some (MCall (Remove k)) -> dget k (ms_map s) = None ->
     dget k (ms_map (map_step i s)) = None /\ nth_error (ms_threads (map_step i s)) i = Some (MDone (Raise KeyError)) /\ forall j, j <> i -> nth_error (ms_threads (map_step i s)) j = nth_error (ms_threads s) j).
  { intros E G. unfold map_step. rewrite E. unfold imm_pop. rewrite G. cbn [fst snd ms_map ms_threads bind]. split; [exact G|]. split; [rewrite (nth_upd_same _ _ _ _ E); reflexivity|]. intros j Nj. apply nth_upd_other. congruence. }
  assert (Dec : nth_error (ms_threads s) i = Some (MCall (Remove k)) \/ nth_error (ms_threads s) i <> Some (MCall (Remove k))).
  { destruct (nth_error (ms_threads s) i) as [[[k1 v|k1]|k1 v|r]|]; try (right; discriminate). destruct (pystr_eq_dec k1 k) as [->|Nk]; [left; reflexivity|right; congruence]. }
  unfold removing in *. destruct (dget k d) as [v|].
  - destruct R as [(G & F)|(G & i0 & H0 & H1 & F)].
    + destruct Dec as [E|E]; [|destruct (Oth E) as (Eq & K); left; rewrite Eq; split; [exact G|]; intros j Hj; exact (K j _ Hj (F j Hj))].
      right. unfold map_step. rewrite E. unfold imm_pop. rewrite G. cbn [fst snd ms_map ms_threads bind]. split; [apply dget_ddel_same; exact W|]. exists i. split; [exact (Own E)|]. split; [rewrite (nth_upd_same _ _ _ _ E); reflexivity|].
      intros j Nj Hj. left. rewrite nth_upd_other by congruence. exact (F j Hj).
    + right. destruct Dec as [E|E].
      * destruct (Go E G) as (G' & Ei & Ej). split; [exact G'|]. exists i0. split; [exact H0|]. assert (Ni : i0 <> i) by (intros ->; congruence). split; [rewrite Ej by exact Ni; exact H1|].
        intros j Nj Hj. destruct (Nat.eq_dec j i) as [->|Nji]; [right; exact Ei|rewrite Ej by exact Nji; exact (F j Nj Hj)].
      * destruct (Oth E) as (Eq & K). rewrite Eq. split; [exact G|]. exists i0. split; [exact H0|]. split; [exact (K _ _ H0 H1)|]. intros j Nj Hj. destruct (F j Nj Hj) as [F'|F']; [left|right]; exact (K _ _ Hj F').
  - destruct R as (G & F). destruct Dec as [E|E].
    + destruct (Go E G) as (G' & Ei & Ej). split; [exact G'|]. intros j Hj. destruct (Nat.eq_dec j i) as [->|Nji]; [right; exact Ei|rewrite Ej by exact Nji; exact (F j Hj)].
    + destruct (Oth E) as (Eq & K). rewrite Eq. split; [exact G|]. intros j Hj. destruct (F j Hj) as [F'|F']; [left|right]; exact (K _ _ Hj F').
Qed.
Lemma removing_run d ops l k : wf_dict d -> (forall v, ~ In (Assign k v) ops) -> removing d ops k (map_run d ops l).
Proof.
  intros W N. assert (H : wf_dict (ms_map (map_run d ops l)) /\ removing d ops k (map_run d ops l)); [|tauto].
  induction l as [|i l (IW & IR)] using rev_ind.
  - split; [exact W|]. unfold removing. cbn [map_run fold_left ms_map ms_threads]. assert (H : forall j, nth_error ops j = Some (Remove k) -> nth_error (map MCall ops) j = Some (MCall (Remove k))) by (intros j Hj; rewrite nth_error_map, Hj; reflexivity).
    destruct (dget k d) eqn:G; [left|]; auto.
  - rewrite map_run_app. cbn [mfrom fold_left]. split; [apply mwf_step; exact IW|]. apply removing_step; [exact N|apply mok_run|exact IW|exact IR].
Qed.
Lemma one_removes d ops l k : wf_dict d -> (forall v, ~ In (Assign k v) ops) -> let s := map_run d ops l in
  (forall j r, nth_error ops j = Some (Remove k) -> nth_error (ms_threads s) j = Some (MDone r) -> r = Ok tt \/ r = Raise KeyError) /\
  (forall i j, nth_error ops i = Some (Remove k) -> nth_error ops j = Some (Remove k) -> nth_error (ms_threads s) i = Some (MDone (Ok tt)) -> nth_error (ms_threads s) j = Some (MDone (Ok tt)) -> i = j) /\
  ((exists j r, nth_error ops j = Some (Remove k) /\ nth_error (ms_threads s) j = Some (MDone r)) ->
     dget k (ms_map s) = None /\ (dget k d <> None <-> exists i, nth_error ops i = Some (Remove k) /\ nth_error (ms_threads s) i = Some (MDone (Ok tt)))).
Proof.
  intros W N. cbn zeta. pose proof (removing_run d ops l k W N) as R. unfold removing in R. set (s := map_run d ops l) in *. destruct (dget k d) as [v|].
  - destruct R as [(G & F)|(G & i0 & H0 & H1 & F)].
    + split; [intros j r Hj Hr; rewrite (F j Hj) in Hr; discriminate|]. split; [intros i j Hi _ Hr; rewrite (F i Hi) in Hr; discriminate|]. intros (j & r & Hj & Hr). rewrite (F j Hj) in Hr. discriminate.
    + assert (K : forall j, nth_error ops j = Some (Remove k) -> nth_error (ms_threads s) j = Some (MDone (Ok tt)) -> j = i0).
      { intros j Hj Hr. destruct (Nat.eq_dec j i0) as [E|E]; [exact E|]. destruct (F j E Hj) as [H|H]; rewrite H in Hr; discriminate. }
      split; [intros j r Hj Hr; destruct (Nat.eq_dec j i0) as [->|E]; [rewrite H1 in Hr; injection Hr as <-; auto|]; destruct (F j E Hj) as [H|H]; rewrite H in Hr; [discriminate|injection Hr as <-; auto]|].
      split; [intros i j Hi Hj Ai Aj; rewrite (K i Hi Ai), (K j Hj Aj); reflexivity|]. intros _. split; [exact G|]. split; [intros _; exists i0; auto|intros _; discriminate].
  - destruct R as (G & F). assert (K : forall j, nth_error ops j = Some (Remove k) -> nth_error (ms_threads s) j <> Some (MDone (Ok tt))) by (intros j Hj Hr; destruct (F j Hj) as [H|H]; rewrite H in Hr; discriminate).
    split; [intros j r Hj Hr; destruct (F j Hj) as [H|H]; rewrite H in Hr; [discriminate|injection Hr as <-; auto]|]. split; [intros i j Hi _ Hr; destruct (K i Hi Hr)|]. intros _. split; [exact G|]. split; [congruence|]. intros (i & Hi & Hr). destruct (K i Hi Hr).
Qed.
