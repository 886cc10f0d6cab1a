(** Lemmas about objects that several threads use at once (M_Threads). *)
From Coq Require Import Strings.String ZifyBool.
From Verif Require Import PyBase L_PyBase PyDict L_PyDict PyInt M_RpcId M_Mesh S_Mesh L_Mesh M_AioServer L_AioServer2 M_Threads S_Threads.
From Verif Require L_Rest1 L_Rest2.
Open Scope nat_scope.

(** ** The service map *)
Definition mfrom (s : mst) (l : list nat) : mst := fold_left (fun s i => map_step i s) l s.
Lemma map_run_app d ops l1 l2 : map_run d ops (l1 ++ l2) = mfrom (map_run d ops l1) l2.
Proof. apply fold_left_app. Qed.
Lemma both_assign d k a b : dget k d = None ->
  dget k (ms_map (map_run d [Assign k a; Assign k b] [0; 1; 0])) = Some a /\ dget k (ms_map (map_run d [Assign k a; Assign k b] [0; 1; 0; 1])) = Some b /\
  ms_threads (map_run d [Assign k a; Assign k b] [0; 1; 0; 1]) = [MDone (Ok tt); MDone (Ok tt)].
Proof.
  intros H. assert (M : dmem k d = false) by (unfold dmem; rewrite H; reflexivity). unfold map_run. cbn [fold_left map]. unfold map_step. cbn [nth_error ms_threads ms_map]. rewrite M. cbn [nth_error ms_threads ms_map upd]. rewrite M. cbn [nth_error ms_threads ms_map upd].
  split; [apply dget_dset_same|]. split; [apply dget_dset_same|reflexivity].
Qed.
(** the operation a thread is for *)
Definition for_op (o : mapop) (p : mpc) : Prop := match p with MCall o' => o' = o | MStore k v => o = Assign k v | MDone _ => True end.
Definition mok (ops : list mapop) (s : mst) : Prop := List.length (ms_threads s) = List.length ops /\ forall i p o, nth_error (ms_threads s) i = Some p -> nth_error ops i = Some o -> for_op o p.
Lemma mok_goto ops s i d p : mok ops s -> (forall o, nth_error ops i = Some o -> for_op o p) -> mok ops {| ms_map := d; ms_threads := upd i (fun _ => p) (ms_threads s) |}.
Proof.
  intros (L & F) H. split; [cbn; rewrite length_upd; exact L|]. intros j q o Hj Ho. cbn in Hj. apply nth_upd_inv in Hj as [(-> & x & _ & ->)|(_ & Hj)]; [apply H; exact Ho|exact (F j q o Hj Ho)].
Qed.
Lemma mok_step ops i s : mok ops s -> mok ops (map_step i s).
Proof.
  intros M. unfold map_step. destruct (nth_error (ms_threads s) i) as [[[k v|k]|k v|r]|] eqn:E; try exact M.
  - destruct (dmem k (ms_map s)); apply mok_goto; auto; intros o Ho; [exact I|]. exact (eq_sym (proj2 M i _ o E Ho)).
  - apply mok_goto; auto. intros o _. exact I.
  - apply mok_goto; auto. intros o _. exact I.
Qed.
Lemma mok_from ops l : forall s, mok ops s -> mok ops (mfrom s l).
Proof. induction l as [|i l IH]; intros s M; [exact M|]. apply IH, mok_step, M. Qed.
Lemma mok_run d ops l : mok ops (map_run d ops l).
Proof.
  apply mok_from. split; [apply map_length|]. intros i p o H Ho. cbn in H. rewrite nth_error_map, Ho in H. injection H as <-. reflexivity.
Qed.
(** one step, seen from key k *)
Lemma step_key ops i s k : mok ops s -> ~ In (Remove k) ops ->
  dget k (ms_map (map_step i s)) = dget k (ms_map s) \/ exists v, nth_error (ms_threads s) i = Some (MStore k v) /\ dget k (ms_map (map_step i s)) = Some v.
Proof.
  intros (L & F) N. unfold map_step. destruct (nth_error (ms_threads s) i) as [[[k1 v|k1]|k1 v|r]|] eqn:E; auto.
  - destruct (dmem k1 (ms_map s)); auto.
  - cbn [ms_map]. left. destruct (nth_error ops i) as [o|] eqn:Eo; [|apply nth_error_None in Eo; assert (nth_error (ms_threads s) i <> None) by congruence; apply nth_error_Some in H; lia].
    pose proof (F i _ o E Eo) as K. cbn in K. subst o. assert (Nk : k1 <> k) by (intros ->; apply N; exact (nth_error_In _ _ Eo)). unfold imm_pop. destruct (dget k1 (ms_map s)); [cbn [fst]; apply dget_ddel_other; congruence|reflexivity].
  - cbn [ms_map]. destruct (pystr_eq_dec k1 k) as [->|Nk]; [right; exists v; split; [reflexivity|apply dget_dset_same]|left; apply dget_dset_other; congruence].
Qed.
Lemma step_store i s k v j : nth_error (ms_threads (map_step i s)) j = Some (MStore k v) ->
  nth_error (ms_threads s) j = Some (MStore k v) \/ (i = j /\ nth_error (ms_threads s) j = Some (MCall (Assign k v)) /\ dget k (ms_map s) = None).
Proof.
  unfold map_step. destruct (nth_error (ms_threads s) i) as [[[k1 v1|k1]|k1 v1|r]|] eqn:E; auto.
  - destruct (dmem k1 (ms_map s)) eqn:M; cbn [ms_threads]; intros H; apply nth_upd_inv in H as [(<- & x & Hx & Hy)|(_ & H)]; auto; try discriminate. injection Hy as -> ->. right. split; [reflexivity|]. split; [exact E|].
    unfold dmem in M. destruct (dget k1 (ms_map s)); [discriminate|reflexivity].
  - cbn [ms_threads]. intros H. apply nth_upd_inv in H as [(<- & x & Hx & Hy)|(_ & H)]; auto; discriminate.
  - cbn [ms_threads]. intros H. apply nth_upd_inv in H as [(<- & x & Hx & Hy)|(_ & H)]; auto; discriminate.
Qed.
Lemma step_done i s j : match nth_error (ms_threads s) j with
  | Some (MDone r) => nth_error (ms_threads (map_step i s)) j = Some (MDone r)
  | Some (MCall (Assign k v)) => nth_error (ms_threads (map_step i s)) j = Some (MCall (Assign k v)) \/
      (i = j /\ ((dget k (ms_map s) = None /\ nth_error (ms_threads (map_step i s)) j = Some (MStore k v)) \/ (dget k (ms_map s) <> None /\ nth_error (ms_threads (map_step i s)) j = Some (MDone (Raise KeyError)))) /\
       ms_map (map_step i s) = ms_map s)
  | Some (MStore k v) => nth_error (ms_threads (map_step i s)) j = Some (MStore k v) \/ (i = j /\ nth_error (ms_threads (map_step i s)) j = Some (MDone (Ok tt)) /\ dget k (ms_map (map_step i s)) = Some v)
  | _ => True
  end.
Proof.
  destruct (Nat.eq_dec i j) as [<-|N].
  - unfold map_step. destruct (nth_error (ms_threads s) i) as [[[k1 v1|k1]|k1 v1|r]|] eqn:E; auto.
    + right. split; [reflexivity|]. unfold dmem. destruct (dget k1 (ms_map s)) eqn:G; cbn [ms_threads ms_map]; rewrite (nth_upd_same _ _ _ _ E); (split; [|reflexivity]); [right|left]; split; congruence.
    + right. split; [reflexivity|]. cbn [ms_threads ms_map]. rewrite (nth_upd_same _ _ _ _ E). split; [reflexivity|]. apply dget_dset_same.
  - assert (K : nth_error (ms_threads (map_step i s)) j = nth_error (ms_threads s) j).
    { unfold map_step. destruct (nth_error (ms_threads s) i) as [[[k1 v1|k1]|k1 v1|r]|]; auto; [destruct (dmem k1 (ms_map s))| |]; cbn [ms_threads]; apply nth_upd_other; exact N. }
    rewrite K. destruct (nth_error (ms_threads s) j) as [[[]| |]|]; auto.
Qed.
(** what is settled stays *)
Lemma settled_from ops k v l : forall s, mok ops s -> ~ In (Remove k) ops -> ~ assigning s k -> dget k (ms_map s) = Some v ->
  dget k (ms_map (mfrom s l)) = Some v /\ ~ assigning (mfrom s l) k /\
  forall j w r, nth_error (ms_threads s) j = Some (MCall (Assign k w)) -> nth_error (ms_threads (mfrom s l)) j = Some (MDone r) -> r = Raise KeyError.
Proof.
  induction l as [|i l IH]; intros s M N A G; [split; [exact G|]; split; [exact A|]; cbn; congruence|]. change (mfrom s (i :: l)) with (mfrom (map_step i s) l).
  assert (G' : dget k (ms_map (map_step i s)) = Some v) by (destruct (step_key ops i s k M N) as [E|(w & E & _)]; [congruence|destruct A; exists i, w; exact E]).
  assert (A' : ~ assigning (map_step i s) k) by (intros (j & w & H); apply step_store in H as [H|(_ & _ & H)]; [apply A; exists j, w; exact H|congruence]).
  destruct (IH _ (mok_step ops i s M) N A' G') as (H1 & H2 & H3). split; [exact H1|]. split; [exact H2|]. intros j w r Hj Hr.
  pose proof (step_done i s j) as D. rewrite Hj in D. destruct D as [D|(_ & [(D & _)|(_ & D)] & _)]; [exact (H3 j w r D Hr)|congruence|].
  assert (St : forall l s, nth_error (ms_threads s) j = Some (MDone (Raise KeyError)) -> nth_error (ms_threads (mfrom s l)) j = Some (MDone (Raise KeyError))).
  { clear. induction l as [|i l IH]; intros s H; [exact H|]. apply IH. pose proof (step_done i s j) as D. rewrite H in D. exact D. }
  rewrite (St l _ D) in Hr. congruence.
Qed.
Lemma settled d ops l1 l2 k v : ~ In (Remove k) ops -> ~ assigning (map_run d ops l1) k -> dget k (ms_map (map_run d ops l1)) = Some v ->
  dget k (ms_map (map_run d ops (l1 ++ l2))) = Some v /\
  forall j w r, nth_error (ms_threads (map_run d ops l1)) j = Some (MCall (Assign k w)) -> nth_error (ms_threads (map_run d ops (l1 ++ l2))) j = Some (MDone r) -> r = Raise KeyError.
Proof. intros N A G. rewrite map_run_app. destruct (settled_from ops k v l2 _ (mok_run d ops l1) N A G) as (H1 & _ & H3). auto. Qed.
(** the only thread that assigns k *)
Lemma sole d ops l i k v : nth_error ops i = Some (Assign k v) -> (forall j o, nth_error ops j = Some o -> j <> i -> op_key o <> k) ->
  let s := map_run d ops l in
  match nth_error (ms_threads s) i with
  | Some (MDone r) => match dget k d with None => r = Ok tt /\ dget k (ms_map s) = Some v | Some w => r = Raise KeyError /\ dget k (ms_map s) = Some w end
  | Some _ => dget k (ms_map s) = dget k d
  | None => False
  end.
Proof.
  intros Hi Ho. assert (N : ~ In (Remove k) ops) by (intros H; apply In_nth_error in H as (j & Hj); destruct (Nat.eq_dec j i) as [->|Nj]; [congruence|]; exact (Ho j _ Hj Nj eq_refl)).
  enough (H : let s := map_run d ops l in match nth_error (ms_threads s) i with
  | Some (MDone r) => match dget k d with None => r = Ok tt /\ dget k (ms_map s) = Some v | Some w => r = Raise KeyError /\ dget k (ms_map s) = Some w end
  | Some (MStore k' v') => dget k (ms_map s) = dget k d /\ k' = k /\ v' = v /\ dget k d = None
  | Some (MCall o) => dget k (ms_map s) = dget k d /\ o = Assign k v | None => False end).
  { cbv zeta in *. destruct (nth_error (ms_threads (map_run d ops l)) i) as [[]|]; tauto. }
  cbv zeta. induction l as [|j l IH] using rev_ind.
  - cbn. rewrite nth_error_map, Hi. cbn. auto.
  - rewrite map_run_app. set (s := map_run d ops l) in *. change (mfrom s [j]) with (map_step j s). pose proof (step_done j s i) as D. pose proof (mok_run d ops l) as M. fold s in M.
    assert (Oth : j <> i -> dget k (ms_map (map_step j s)) = dget k (ms_map s)).
    { intros Nj. destruct (step_key ops j s k M N) as [E|(w & E & _)]; [exact E|]. exfalso. destruct (nth_error ops j) as [o|] eqn:Eo.
      - pose proof (proj2 M j _ o E Eo) as K. cbn in K. subst o. exact (Ho j _ Eo Nj eq_refl).
      - apply nth_error_None in Eo. assert (K : nth_error (ms_threads s) j <> None) by congruence. apply nth_error_Some in K. destruct M as (M & _). lia. }
    assert (Jdec : j = i \/ j <> i) by lia.
    destruct (nth_error (ms_threads s) i) as [[o|k' v'|r]|] eqn:E; [| | |destruct IH].
    + destruct IH as (IH & ->). destruct D as [D|(<- & [(D1 & D2)|(D1 & D2)] & Dm)].
      * rewrite D. split; [|reflexivity]. destruct Jdec as [->|Nj]; [|rewrite (Oth Nj); exact IH]. destruct (step_key ops i s k M N) as [K|(w & K & _)]; congruence.
      * rewrite D2, Dm, IH. split; [reflexivity|]. split; [reflexivity|]. split; [reflexivity|congruence].
      * rewrite D2, Dm, IH. rewrite IH in D1. destruct (dget k d); [auto|congruence].
    + destruct IH as (IH & -> & -> & Hn). destruct D as [D|(<- & D1 & D2)].
      * rewrite D. destruct Jdec as [->|Nj]; [|rewrite (Oth Nj); auto]. exfalso. unfold map_step in D. rewrite E in D. cbn [ms_threads] in D. rewrite (nth_upd_same _ _ _ _ E) in D. discriminate.
      * rewrite D1, Hn. auto.
    + rewrite D. destruct Jdec as [->|Nj]; [|rewrite (Oth Nj); exact IH]. destruct (step_key ops i s k M N) as [K|(w & K & _)]; [rewrite K; exact IH|congruence].
Qed.
