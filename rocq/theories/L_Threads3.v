(** Lemmas about rpc ids and publish() with several threads (M_Threads). *)
From Coq Require Import Strings.String ZifyBool.
From Verif Require Import PyBase L_PyBase PyDict L_PyDict PyInt L_PyInt M_RequestId M_RpcId L_RpcId M_Mesh S_Mesh L_Mesh M_AioServer L_AioServer2 M_Threads S_Threads.
Open Scope nat_scope.

(** ** Children of one rpc id *)
Definition child_ids (U : tables) (ids : list seg) (n : Z) : list seg := map (innertrans U) ids ++ [SInt n].
Lemma mk_child U ids n : mk_rpcid U (ids ++ [SInt n]) = Ok (child_ids U ids n).
Proof.
  unfold mk_rpcid, child_ids. assert (E : map (innertrans U) (ids ++ [SInt n]) = map (innertrans U) ids ++ [SInt n]) by (rewrite map_app; reflexivity).
  destruct (ids ++ [SInt n]) as [|a l] eqn:Ea; [destruct ids; discriminate|]. rewrite E, last_snoc. reflexivity.
Qed.
Lemma join_dot_snoc l : exists pre, forall y, join_dot (l ++ [y]) = pre ++ y.
Proof.
  induction l as [|a l (pre & IH)]; [exists []; intros y; reflexivity|].
  exists (a ++ 46%Z :: pre). intros y. specialize (IH y). cbn [app]. destruct (l ++ [y]) as [|b m] eqn:Eb; [destruct l; discriminate|].
  change (join_dot (a :: b :: m)) with (a ++ 46%Z :: join_dot (b :: m)). rewrite IH. rewrite <- app_assoc. reflexivity.
Qed.
Lemma child_text U ids n m : rpcid_str (child_ids U ids n) = rpcid_str (child_ids U ids m) -> n = m.
Proof.
  unfold rpcid_str, child_ids. rewrite !map_app. cbn [map seg_str]. destruct (join_dot_snoc (map seg_str (map (innertrans U) ids))) as (pre & J).
  rewrite !J. intros H. apply app_inv_head in H. apply str_int_inj. exact H.
Qed.
Definition cgo (h : list rpcobj) (ts : list cpc) (t : nat) (p : cpc) : rst := {| rs_objs := h; rs_threads := upd t (fun _ => p) ts |}.
Lemma st_load U h ts t i o : nth_error ts t = Some (CLoad i) -> nth_error h i = Some o -> rpc_step U t {| rs_objs := h; rs_threads := ts |} = cgo h ts t (CStore i (r_count o)).
Proof. intros H1 H2. unfold rpc_step. cbn [rs_objs rs_threads]. rewrite H1, H2. reflexivity. Qed.
Lemma st_store U h ts t i c : nth_error ts t = Some (CStore i c) -> rpc_step U t {| rs_objs := h; rs_threads := ts |} = cgo (upd i (set_count (c + 1)) h) ts t (CBuild i).
Proof. intros H1. unfold rpc_step. cbn [rs_objs rs_threads]. rewrite H1. reflexivity. Qed.
Definition child_obj (U : tables) (i : nat) (o : rpcobj) : rpcobj := {| r_ids := child_ids U (r_ids o) (r_count o); r_count := 0; r_parent := Some i |}.
Lemma st_build U h ts t i o : nth_error ts t = Some (CBuild i) -> nth_error h i = Some o -> rpc_step U t {| rs_objs := h; rs_threads := ts |} = cgo (h ++ [child_obj U i o]) ts t (CDone (Ok (List.length h))).
Proof. intros H1 H2. unfold rpc_step. cbn [rs_objs rs_threads]. rewrite H1, H2, mk_child. reflexivity. Qed.

Lemma same_number U h i o : nth_error h i = Some o -> let s := rpc_run U h [i; i] [0; 1; 0; 1; 0; 1] in
  exists x y text, x <> y /\ gave s 0 x text /\ gave s 1 y text.
Proof.
  intros Hi. cbv zeta. unfold rpc_run. cbn [map]. cbn [fold_left].
  pose (o2 := set_count (r_count o + 1) (set_count (r_count o + 1) o)).
  pose (h2 := upd i (set_count (r_count o + 1)) (upd i (set_count (r_count o + 1)) h)). pose (c := child_obj U i o2).
  assert (E1 : nth_error h2 i = Some o2) by (unfold h2, o2; apply nth_upd_same, nth_upd_same, Hi).
  assert (E2 : nth_error (h2 ++ [c]) i = Some o2) by (rewrite nth_error_app1; [exact E1|apply nth_error_Some; congruence]).
  rewrite (st_load U h [CLoad i; CLoad i] 0 i o) by auto. unfold cgo. cbn [upd].
  rewrite (st_load U h [CStore i (r_count o); CLoad i] 1 i o) by auto. unfold cgo. cbn [upd].
  rewrite (st_store U h [CStore i (r_count o); CStore i (r_count o)] 0 i (r_count o)) by auto. unfold cgo. cbn [upd].
  erewrite st_store by reflexivity. unfold cgo. cbn [upd]. fold h2.
  rewrite (st_build U h2 [CBuild i; CBuild i] 0 i o2) by auto. unfold cgo. cbn [upd]. fold c.
  rewrite (st_build U (h2 ++ [c]) [CDone (Ok (List.length h2)); CBuild i] 1 i o2) by auto. unfold cgo. cbn [upd]. fold c.
  exists (List.length h2), (List.length (h2 ++ [c])), (rpcid_str (r_ids c)). split; [rewrite app_length; cbn; lia|]. unfold gave. cbn [rs_threads rs_objs nth_error]. split; (split; [reflexivity|]); exists c; (split; [|reflexivity]).
  - rewrite <- app_assoc. rewrite nth_error_app2, Nat.sub_diag by lia. reflexivity.
  - rewrite nth_error_app2, Nat.sub_diag by lia. reflexivity.
Qed.

Definition pc_parent (p : cpc) (i : nat) : Prop := match p with CLoad j | CStore j _ | CBuild j => j = i | CDone _ => True end.
Record cok (U : tables) (parents : list nat) (s : rst) : Prop := {
  ck_parent : forall t p, nth_error (rs_threads s) t = Some p -> exists i, nth_error parents t = Some i /\ pc_parent p i;
  ck_alone : forall t t' i, deriving s t i -> deriving s t' i -> t = t';
  ck_store : forall t i c, nth_error (rs_threads s) t = Some (CStore i c) -> exists o, nth_error (rs_objs s) i = Some o /\ r_count o = c;
  ck_done : forall t x i, nth_error (rs_threads s) t = Some (CDone (Ok x)) -> nth_error parents t = Some i ->
      exists o ox n, nth_error (rs_objs s) i = Some o /\ nth_error (rs_objs s) x = Some ox /\ r_ids ox = child_ids U (r_ids o) n /\ (n <= r_count o)%Z /\ ((exists t', nth_error (rs_threads s) t' = Some (CBuild i)) -> (n < r_count o)%Z);
  ck_differ : forall t t' x x' i ox ox', t <> t' -> nth_error (rs_threads s) t = Some (CDone (Ok x)) -> nth_error (rs_threads s) t' = Some (CDone (Ok x')) -> nth_error parents t = Some i -> nth_error parents t' = Some i ->
      nth_error (rs_objs s) x = Some ox -> nth_error (rs_objs s) x' = Some ox' -> rpcid_str (r_ids ox) <> rpcid_str (r_ids ox')
}.
Lemma nth_app_some {A} (l r : list A) i x : nth_error l i = Some x -> nth_error (l ++ r) i = Some x.
Proof. intros H. rewrite nth_error_app1; [exact H|apply nth_error_Some; congruence]. Qed.
Lemma cok_step U parents t s : cok U parents s -> (forall i, nth_error (rs_threads s) t = Some (CLoad i) -> forall t', ~ deriving s t' i) -> cok U parents (rpc_step U t s).
Proof.
  intros K Only. destruct s as [h ts]. destruct (nth_error ts t) as [p|] eqn:Ht; [|unfold rpc_step; cbn [rs_threads]; rewrite Ht; exact K].
  destruct (ck_parent _ _ _ K t p Ht) as (i & Hp & Pp). destruct p as [j|j c|j|r]; cbn in Pp; try subst j.
  - destruct (nth_error h i) as [o|] eqn:Ho; [|unfold rpc_step; cbn [rs_threads rs_objs]; rewrite Ht, Ho; exact K]. rewrite (st_load U h ts t i o Ht Ho). unfold cgo.
    specialize (Only i Ht). assert (Dv : forall t' j, deriving {| rs_objs := h; rs_threads := upd t (fun _ => CStore i (r_count o)) ts |} t' j -> t' = t /\ j = i \/ t' <> t /\ deriving {| rs_objs := h; rs_threads := ts |} t' j).
    { intros t' j [D|(c & D)]; cbn [rs_threads] in D; apply nth_upd_inv in D as [(<- & x & _ & E)|(N & D)]; try discriminate.
      - right. split; [auto|]. left. exact D.
      - injection E as -> ->. auto.
      - right. split; [auto|]. right. eauto. }
    constructor; cbn [rs_threads rs_objs].
    + intros t' p H. apply nth_upd_inv in H as [(<- & x & _ & ->)|(N & H)]; [exists i; split; [exact Hp|reflexivity]|exact (ck_parent _ _ _ K t' p H)].
    + intros t1 t2 j D1 D2. apply Dv in D1, D2. destruct D1 as [(-> & ->)|(N1 & D1)], D2 as [(-> & E)|(N2 & D2)]; try congruence; [destruct (Only _ D2)|subst j; destruct (Only _ D1)|exact (ck_alone _ _ _ K _ _ _ D1 D2)].
    + intros t' j c H. apply nth_upd_inv in H as [(<- & x & _ & E)|(N & H)]; [injection E as -> ->; eauto|exact (ck_store _ _ _ K t' j c H)].
    + intros t' x j H Hj. apply nth_upd_inv in H as [(<- & y & _ & E)|(N & H)]; [discriminate|]. destruct (ck_done _ _ _ K t' x j H Hj) as (o' & ox & n & A1 & A2 & A3 & A4 & A5). exists o', ox, n. repeat split; auto.
      intros (t2 & H2). apply A5. exists t2. apply nth_upd_inv in H2 as [(<- & y & _ & E)|(N2 & H2)]; [discriminate|exact H2].
    + intros t1 t2 x x' j ox ox' N H1 H2. apply nth_upd_inv in H1 as [(<- & y & _ & E)|(N1 & H1)]; [discriminate|]. apply nth_upd_inv in H2 as [(<- & y & _ & E)|(N2 & H2)]; [discriminate|]. exact (ck_differ _ _ _ K t1 t2 x x' j ox ox' N H1 H2).
  - destruct (ck_store _ _ _ K t i c Ht) as (o & Ho & Hc). cbn [rs_objs] in Ho. rewrite (st_store U h ts t i c Ht). unfold cgo.
    set (h' := upd i (set_count (c + 1)) h). assert (Ids : forall x ox, nth_error h x = Some ox -> exists ox', nth_error h' x = Some ox' /\ r_ids ox' = r_ids ox /\ (x <> i -> ox' = ox) /\ (x = i -> r_count ox' = (c + 1)%Z)).
    { intros x ox Hx. destruct (Nat.eq_dec x i) as [->|N]; [exists (set_count (c + 1) ox); unfold h'; rewrite (nth_upd_same _ _ _ _ Hx); repeat split; auto; congruence|]. exists ox. unfold h'. rewrite nth_upd_other by exact (not_eq_sym N). repeat split; auto; congruence. }
    assert (Ids' : forall x ox, nth_error h' x = Some ox -> exists ox', nth_error h x = Some ox' /\ r_ids ox = r_ids ox').
    { intros x ox Hx. apply nth_upd_inv in Hx as [(<- & y & Hy & ->)|(N & Hx)]; [exists y; auto|eauto]. }
    assert (Dv : forall t' j, deriving {| rs_objs := h'; rs_threads := upd t (fun _ => CBuild i) ts |} t' j -> deriving {| rs_objs := h; rs_threads := ts |} t' j).
    { intros t' j [D|(c' & D)]; cbn [rs_threads] in D; apply nth_upd_inv in D as [(<- & x & _ & E)|(N & D)]; try discriminate.
      - injection E as ->. right. eauto.
      - left. exact D.
      - right. eauto. }
    constructor; cbn [rs_threads rs_objs].
    + intros t' p H. apply nth_upd_inv in H as [(<- & x & _ & ->)|(N & H)]; [exists i; split; [exact Hp|reflexivity]|exact (ck_parent _ _ _ K t' p H)].
    + intros t1 t2 j D1 D2. apply Dv in D1, D2. exact (ck_alone _ _ _ K _ _ _ D1 D2).
    + intros t' j c' H. apply nth_upd_inv in H as [(<- & x & _ & E)|(N & H)]; [discriminate|]. destruct (ck_store _ _ _ K t' j c' H) as (o' & Ho' & Hc'). assert (Nj : j <> i). { intros ->. apply N. apply (ck_alone _ _ _ K t t' i); right; eauto. }
      exists o'. split; [|exact Hc']. unfold h'. rewrite nth_upd_other by exact (not_eq_sym Nj). exact Ho'.
    + intros t' x j H Hj. apply nth_upd_inv in H as [(<- & y & _ & E)|(N & H)]; [discriminate|]. destruct (ck_done _ _ _ K t' x j H Hj) as (o' & ox & n & A1 & A2 & A3 & A4 & A5). cbn [rs_objs rs_threads] in *.
      destruct (Ids _ _ A1) as (o2 & B1 & B2 & B3 & B4). destruct (Ids _ _ A2) as (ox2 & C1 & C2 & _ & _). exists o2, ox2, n. rewrite C2, B2. repeat split; auto.
      * destruct (Nat.eq_dec j i) as [->|Nj]; [rewrite (B4 eq_refl); assert (o' = o) by congruence; subst o'; lia|rewrite (B3 Nj); exact A4].
      * intros (t2 & H2). destruct (Nat.eq_dec j i) as [->|Nj]; [rewrite (B4 eq_refl); assert (o' = o) by congruence; subst o'; lia|]. rewrite (B3 Nj). apply A5. exists t2. apply nth_upd_inv in H2 as [(<- & y & _ & E)|(N2 & H2)]; [congruence|exact H2].
    + intros t1 t2 x x' j ox ox' N H1 H2 P1 P2 O1 O2. apply nth_upd_inv in H1 as [(<- & y & _ & E)|(N1 & H1)]; [discriminate|]. apply nth_upd_inv in H2 as [(<- & y & _ & E)|(N2 & H2)]; [discriminate|].
      destruct (Ids' _ _ O1) as (a & A & ->). destruct (Ids' _ _ O2) as (b & B & ->). exact (ck_differ _ _ _ K t1 t2 x x' j a b N H1 H2 P1 P2 A B).
  - destruct (nth_error h i) as [o|] eqn:Ho; [|unfold rpc_step; cbn [rs_threads rs_objs]; rewrite Ht, Ho; exact K]. rewrite (st_build U h ts t i o Ht Ho). unfold cgo.
    set (c := child_obj U i o). set (x0 := List.length h). assert (Hc : nth_error (h ++ [c]) x0 = Some c) by (unfold x0; rewrite nth_error_app2, Nat.sub_diag by lia; reflexivity).
    assert (Dv : forall t' j, deriving {| rs_objs := h ++ [c]; rs_threads := upd t (fun _ => CDone (Ok x0)) ts |} t' j -> t' <> t /\ deriving {| rs_objs := h; rs_threads := ts |} t' j).
    { intros t' j [D|(c' & D)]; cbn [rs_threads] in D; apply nth_upd_inv in D as [(<- & x & _ & E)|(N & D)]; try discriminate; (split; [auto|]); [left; exact D|right; eauto]. }
    assert (Alone : forall t', t' <> t -> nth_error ts t' = Some (CBuild i) -> False). { intros t' N D. apply N. apply (ck_alone _ _ _ K t' t i); left; assumption. }
    constructor; cbn [rs_threads rs_objs].
    + intros t' p H. apply nth_upd_inv in H as [(<- & x & _ & ->)|(N & H)]; [exists i; split; [exact Hp|exact I]|exact (ck_parent _ _ _ K t' p H)].
    + intros t1 t2 j D1 D2. apply Dv in D1 as (_ & D1). apply Dv in D2 as (_ & D2). exact (ck_alone _ _ _ K _ _ _ D1 D2).
    + intros t' j c' H. apply nth_upd_inv in H as [(<- & x & _ & E)|(N & H)]; [discriminate|]. destruct (ck_store _ _ _ K t' j c' H) as (o' & Ho' & Hc'). exists o'. split; [apply nth_app_some; exact Ho'|exact Hc'].
    + intros t' x j H Hj. apply nth_upd_inv in H as [(<- & y & _ & E)|(N & H)].
      * injection E as ->. assert (j = i) by congruence. subst j. exists o, c, (r_count o). split; [apply nth_app_some; exact Ho|]. split; [exact Hc|]. split; [reflexivity|]. split; [lia|].
        intros (t2 & H2). apply nth_upd_inv in H2 as [(<- & z & _ & E)|(N2 & H2)]; [discriminate|destruct (Alone t2 (not_eq_sym N2) H2)].
      * destruct (ck_done _ _ _ K t' x j H Hj) as (o' & ox & n & A1 & A2 & A3 & A4 & A5). cbn [rs_objs rs_threads] in *. exists o', ox, n. repeat split; auto using nth_app_some.
        intros (t2 & H2). apply A5. exists t2. apply nth_upd_inv in H2 as [(<- & z & _ & E)|(N2 & H2)]; [discriminate|exact H2].
    + assert (New : forall t' x' ox', t' <> t -> nth_error ts t' = Some (CDone (Ok x')) -> nth_error parents t' = Some i -> nth_error (h ++ [c]) x' = Some ox' -> rpcid_str (r_ids c) <> rpcid_str (r_ids ox')).
      { intros t' x' ox' N H Hj Hx E. destruct (ck_done _ _ _ K t' x' i H Hj) as (o' & oy & n & A1 & A2 & A3 & _ & A5). cbn [rs_objs rs_threads] in *. pose proof (nth_app_some h [c] x' oy A2) as Z. assert (oy = ox') by congruence. subst oy. assert (o' = o) by congruence. subst o'.
        specialize (A5 (ex_intro _ t Ht)). rewrite A3 in E. unfold c, child_obj in E. cbn [r_ids] in E. apply child_text in E. lia. }
      intros t1 t2 x x' j ox ox' N H1 H2 P1 P2 O1 O2. apply nth_upd_inv in H1 as [(<- & y & _ & E)|(N1 & H1)]; apply nth_upd_inv in H2 as [(E' & y' & _ & E2)|(N2 & H2)].
      * congruence.
      * injection E as ->. assert (ox = c) by congruence. subst ox. assert (j = i) by congruence. subst j. exact (New t2 x' ox' (not_eq_sym N2) H2 P2 O2).
      * subst t2. injection E2 as ->. assert (ox' = c) by congruence. subst ox'. assert (j = i) by congruence. subst j. apply not_eq_sym. exact (New t1 x ox (not_eq_sym N1) H1 P1 O1).
      * destruct (ck_done _ _ _ K t1 x j H1 P1) as (_ & oa & _ & _ & A2 & _). destruct (ck_done _ _ _ K t2 x' j H2 P2) as (_ & ob & _ & _ & B2 & _). cbn [rs_objs] in *. pose proof (nth_app_some h [c] _ _ A2). pose proof (nth_app_some h [c] _ _ B2). assert (oa = ox) by congruence. assert (ob = ox') by congruence. subst.
        exact (ck_differ _ _ _ K t1 t2 x x' j ox ox' N H1 H2 P1 P2 A2 B2).
  - unfold rpc_step. cbn [rs_threads]. rewrite Ht. exact K.
Qed.
Lemma cok_from U parents l : forall s, cok U parents s -> one_at_a_time U s l -> cok U parents (fold_left (fun s t => rpc_step U t s) l s).
Proof. induction l as [|t l IH]; intros s K O; [exact K|]. destruct O as (O1 & O2). apply IH; [apply cok_step; assumption|exact O2]. Qed.
Lemma cok_init U h parents : cok U parents {| rs_objs := h; rs_threads := map CLoad parents |}.
Proof.
  assert (F : forall t p, nth_error (map CLoad parents) t = Some p -> exists i, nth_error parents t = Some i /\ p = CLoad i). { intros t p H. rewrite nth_error_map in H. destruct (nth_error parents t) as [i|]; [|discriminate]. injection H as <-. eauto. }
  constructor; cbn [rs_threads rs_objs].
  - intros t p H. destruct (F t p H) as (i & Hi & ->). exists i. split; [exact Hi|reflexivity].
  - intros t t' i [D|(c & D)]; destruct (F _ _ D) as (? & _ & E); discriminate.
  - intros t i c D. destruct (F _ _ D) as (? & _ & E); discriminate.
  - intros t x i D. destruct (F _ _ D) as (? & _ & E); discriminate.
  - intros t t' x x' i ox ox' _ D. destruct (F _ _ D) as (? & _ & E); discriminate.
Qed.
Lemma numbers_differ U h parents l t t' i x x' a b : one_at_a_time U {| rs_objs := h; rs_threads := map CLoad parents |} l -> t <> t' -> nth_error parents t = Some i -> nth_error parents t' = Some i ->
  let s := rpc_run U h parents l in gave s t x a -> gave s t' x' b -> a <> b.
Proof. intros O N P P' s (H1 & o & Ho & <-) (H2 & o' & Ho' & <-). exact (ck_differ _ _ _ (cok_from U parents l _ (cok_init U h parents) O) t t' x x' i o o' N H1 H2 P P' Ho Ho'). Qed.

(** ** publish() *)
Definition pub_posts (port : Z) (app : pystr) (names : list pystr) : list post := map (fun n => (EP_pub, publish_doc port app n)) names.
Lemma published_names port app names : map published_name (pub_posts port app names) = map Some names.
Proof. induction names as [|n l IH]; [reflexivity|]. cbn [pub_posts map]. f_equal. exact IH. Qed.
Definition pfrom ans port app (s : pst) (l : list pstep) : pst := fold_left (fun s o => pub_step ans port app o s) l s.
Lemma keys_grow (reg : registry) name sv : exists r, keys (dset name sv reg) = keys reg ++ r /\ (In name (keys reg) -> r = []).
Proof. destruct (in_dec pystr_eq_dec name (keys reg)) as [H|H]; [exists []; rewrite keys_dset_mem, app_nil_r by exact H; auto|exists [name]; rewrite keys_dset_fresh by exact H; split; [reflexivity|contradiction]]. Qed.
Lemma length_keys (reg : registry) : List.length (keys reg) = List.length reg. Proof. apply map_length. Qed.
Record pok ans port app (reg : registry) (s : pst) : Prop := {
  po_grow : exists r, keys (ps_reg s) = keys reg ++ r;
  po_log : exists n, ps_log s = pub_posts port app (firstn n (keys (ps_reg s))) /\ n <= List.length (ps_reg s) /\
    (match ps_pc s with PDone (Raise _) => True | _ => forall k, k < n -> accepted (ans k) end) /\
    match ps_pc s with
    | PNext pos size => pos = n /\ size = List.length reg
    | PPost pos size name => pos = S n /\ size = List.length reg /\ nth_error (keys (ps_reg s)) n = Some name
    | PDone (Ok _) => List.length reg <= n
    | PDone (Raise _) => True
    end
}.
Lemma firstn_nth {A} (l : list A) n x : nth_error l n = Some x -> firstn (S n) l = firstn n l ++ [x].
Proof. revert n. induction l as [|a l IH]; intros [|n] H; try discriminate; cbn in *; [congruence|]. f_equal. apply IH, H. Qed.
Lemma pok_step ans port app reg o s : pok ans port app reg s -> pok ans port app reg (pub_step ans port app o s).
Proof.
  intros ((r & Hr) & n & Hl & Hn & Ha & Hp). destruct s as [rg lg pc]. cbn [ps_reg ps_log ps_pc] in *. destruct o as [|name sv]; cbn [pub_step ps_reg ps_log ps_pc].
  - destruct pc as [pos size|pos size name|[u|e]]; [| |solve [constructor; cbn [ps_reg ps_log ps_pc]; [eauto|exists n; auto]]..].
    + destruct Hp as (-> & ->). destruct (Nat.eqb_spec (List.length rg) (List.length reg)) as [El|Nl]; cbn [negb].
      * destruct (nth_error (keys rg) n) as [name|] eqn:En; (constructor; cbn [ps_reg ps_log ps_pc]; [eauto|exists n; repeat split; auto]). apply nth_error_None in En. rewrite length_keys in En. lia.
      * constructor; cbn [ps_reg ps_log ps_pc]; [eauto|exists n; auto].
    + destruct Hp as (-> & -> & En). unfold mesh_publish, do_post. cbn [ps_reg ps_log ps_pc].
      assert (Ll : List.length lg = n). { rewrite Hl. unfold pub_posts. rewrite map_length, firstn_length, length_keys. lia. }
      assert (Hlg : lg ++ [(EP_pub, publish_doc port app name)] = pub_posts port app (firstn (S n) (keys rg))). { rewrite (firstn_nth _ _ _ En). unfold pub_posts. rewrite map_app. fold (pub_posts port app (firstn n (keys rg))). rewrite <- Hl. reflexivity. }
      assert (Hn' : S n <= List.length rg). { rewrite <- length_keys. apply nth_error_Some. congruence. }
      rewrite Ll. destruct (post_result (ans n)) as [d|e] eqn:Er; constructor; cbn [ps_reg ps_log ps_pc]; eauto; exists (S n); repeat split; auto.
      intros k Hk. destruct (Nat.eq_dec k n) as [->|N]; [apply post_result_accepted; eauto|apply Ha; lia].
  - destruct (keys_grow rg name sv) as (r' & Hg & _). constructor; cbn [ps_reg ps_log ps_pc]; [exists (r ++ r'); rewrite Hg, Hr, app_assoc; reflexivity|]. exists n.
    rewrite Hg. rewrite <- length_keys, Hg, app_length, length_keys. rewrite firstn_app, length_keys. replace (n - List.length rg) with 0 by lia. rewrite firstn_O, app_nil_r. repeat split; auto; [lia|].
    destruct pc as [pos size|pos size nm|[u|e]]; auto. destruct Hp as (-> & -> & En). repeat split; auto. apply nth_app_some. exact En.
Qed.
Lemma pok_run ans port app reg l : pok ans port app reg (pub_run ans port app reg l).
Proof.
  assert (G : forall l s, pok ans port app reg s -> pok ans port app reg (pfrom ans port app s l)) by (clear l; induction l as [|o l IH]; intros s K; [exact K|apply IH, pok_step, K]). apply G.
  constructor; cbn [ps_reg ps_log ps_pc]; [exists []; rewrite app_nil_r; reflexivity|]. exists 0. repeat split; [lia|]. intros k Hk. lia.
Qed.
(** whatever is registered meanwhile, the posts so far name the first interfaces in order; a normal return means that all
    were posted and accepted *)
Lemma pub_prefix ans port app reg l : let s := pub_run ans port app reg l in exists n, map published_name (ps_log s) = map Some (firstn n (keys (ps_reg s))) /\ List.length (ps_log s) = n.
Proof. intros s. destruct (po_log _ _ _ _ _ (pok_run ans port app reg l)) as (n & Hl & Hn & _). fold s in Hl, Hn. exists n. rewrite Hl. split; [apply published_names|]. unfold pub_posts. rewrite map_length, firstn_length, length_keys. lia. Qed.
Lemma pub_returned ans port app reg l : let s := pub_run ans port app reg l in ps_pc s = PDone (Ok tt) ->
  (exists r, map published_name (ps_log s) = map Some (keys reg ++ r)) /\ forall k, k < List.length (ps_log s) -> accepted (ans k).
Proof.
  intros s E. destruct (pok_run ans port app reg l) as ((r & Hr) & n & Hl & Hn & Ha & Hp). fold s in Hr, Hl, Hn, Ha, Hp. rewrite E in Ha, Hp. rewrite Hl. split.
  - rewrite published_names, Hr, firstn_app, length_keys. rewrite firstn_all2 by (rewrite length_keys; exact Hp). eauto.
  - intros k Hk. apply Ha. unfold pub_posts in Hk. rewrite map_length, firstn_length in Hk. lia.
Qed.

(** a new name registered during publish(): the loop ends with an exception before anything more than one further post *)
Definition spoiled (m : nat) (s : pst) : Prop :=
  match ps_pc s with
  | PNext _ size => List.length (ps_log s) <= S m /\ size < List.length (ps_reg s)
  | PPost _ size _ => List.length (ps_log s) <= m /\ size < List.length (ps_reg s)
  | PDone r => List.length (ps_log s) <= S m /\ r <> Ok tt
  end.
Lemma length_grow (reg : registry) name sv : List.length reg <= List.length (dset name sv reg).
Proof. destruct (keys_grow reg name sv) as (r & E & _). rewrite <- !length_keys, E, app_length. lia. Qed.
Lemma spoiled_step ans port app m o s : spoiled m s -> spoiled m (pub_step ans port app o s).
Proof.
  destruct s as [rg lg pc]. unfold spoiled. destruct o as [|name sv]; cbn [pub_step ps_reg ps_log ps_pc].
  - destruct pc as [pos size|pos size name|r]; cbn [ps_reg ps_log ps_pc]; [intros (H1 & H2)|intros (H1 & H2)|auto].
    + destruct (Nat.eqb_spec (List.length rg) size); [lia|]. cbn [negb ps_reg ps_log ps_pc]. split; [exact H1|discriminate].
    + unfold mesh_publish, do_post. cbn [ps_reg ps_log ps_pc]. destruct (post_result _); rewrite app_length; cbn [List.length]; split; try lia. discriminate.
  - pose proof (length_grow rg name sv). destruct pc; cbn [ps_reg ps_log ps_pc]; intros (H1 & H2); split; auto; lia.
Qed.
Lemma spoiled_from ans port app m l : forall s, spoiled m s -> spoiled m (pfrom ans port app s l).
Proof. induction l as [|o l IH]; intros s K; [exact K|]. apply IH, spoiled_step, K. Qed.
Lemma pub_spoiled ans port app reg l1 name sv l2 : let s := pub_run ans port app reg l1 in let s' := pub_run ans port app reg (l1 ++ PRegister name sv :: l2) in
  (forall r, ps_pc s <> PDone r) -> ~ In name (keys (ps_reg s)) -> ps_pc s' <> PDone (Ok tt) /\ List.length (ps_log s') <= S (List.length (ps_log s)).
Proof.
  intros s s' Np Nk. assert (Es : s' = pfrom ans port app (pub_step ans port app (PRegister name sv) s) l2). { unfold s', pub_run. rewrite fold_left_app. reflexivity. }
  destruct (pok_run ans port app reg l1) as ((r & Hr) & n & Hl & Hn & Ha & Hp). fold s in Hr, Hl, Hn, Ha, Hp.
  assert (Lg : List.length reg <= List.length (ps_reg s)) by (rewrite <- !length_keys, Hr, app_length; lia).
  assert (L : List.length (dset name sv (ps_reg s)) = S (List.length (ps_reg s))) by (rewrite dset_fresh by exact Nk; rewrite app_length; cbn; lia).
  assert (K : spoiled (List.length (ps_log s)) (pub_step ans port app (PRegister name sv) s)).
  { unfold spoiled. cbn [pub_step ps_reg ps_log ps_pc]. rewrite L. destruct (ps_pc s) as [pos size|pos size nm|x]; [destruct Hp as (-> & ->); lia|destruct Hp as (-> & -> & _); lia|destruct (Np x eq_refl)]. }
  pose proof (spoiled_from ans port app _ l2 _ K) as Q. rewrite <- Es in Q. unfold spoiled in Q. destruct (ps_pc s') as [pos size|pos size nm|x]; destruct Q as (Q1 & Q2); split; try lia; try discriminate. congruence.
Qed.

(** only names already there are registered again *)
Definition pleft (s : pst) : nat := match ps_pc s with PNext pos size => 2 * (size - pos) + 1 | PPost pos size _ => 2 * (size - pos) + 2 | PDone _ => 0 end.
Definition quiet (reg : registry) (s : pst) : Prop :=
  keys (ps_reg s) = keys reg /\ match ps_pc s with PNext _ size | PPost _ size _ => size = List.length reg | PDone _ => True end.
Lemma quiet_step ans port app reg o s : quiet reg s -> (forall name sv, o = PRegister name sv -> In name (keys reg)) -> quiet reg (pub_step ans port app o s).
Proof.
  intros (Q1 & Q2) H. destruct s as [rg lg pc]. cbn [ps_reg ps_log ps_pc] in *. destruct o as [|name sv]; unfold quiet; cbn [pub_step ps_reg ps_log ps_pc].
  - destruct pc as [pos size|pos size name|r]; cbn [ps_reg ps_log ps_pc]; auto.
    + destruct (negb _); [cbn; auto|]. destruct (nth_error _ _); cbn; auto.
    + unfold mesh_publish, do_post. cbn [ps_reg ps_log ps_pc]. split; [exact Q1|]. destruct (post_result _); auto.
  - split; [|exact Q2]. rewrite keys_dset_mem; [exact Q1|]. rewrite Q1. eapply H. reflexivity.
Qed.
Definition good_end (s : pst) : Prop := match ps_pc s with PDone (Raise _) => False | _ => True end.
Lemma good_go ans port app reg s : (forall k, k < List.length reg -> accepted (ans k)) -> pok ans port app reg s -> quiet reg s -> good_end s ->
  let s' := pub_step ans port app PGo s in good_end s' /\ pleft s' <= pleft s - 1.
Proof.
  intros Ha (_ & n & Hl & Hn & _ & Hp) (Q1 & Q2) G. destruct s as [rg lg pc]. cbn [ps_reg ps_log ps_pc] in *.
  assert (El : List.length rg = List.length reg) by (rewrite <- !length_keys, Q1; reflexivity). unfold good_end, pleft in *. cbn [pub_step ps_reg ps_log ps_pc] in *.
  destruct pc as [pos size|pos size name|[u|e]]; cbn [ps_reg ps_log ps_pc] in *; [| |split; [exact I|lia]|destruct G].
  - destruct Hp as (-> & ->). rewrite El, Nat.eqb_refl. cbn [negb]. destruct (nth_error (keys rg) n) as [name|] eqn:En; cbn [ps_pc]; (split; [exact I|]); [|lia].
    assert (X : n < List.length (keys rg)) by (apply nth_error_Some; congruence). rewrite length_keys in X. lia.
  - destruct Hp as (-> & -> & En). unfold mesh_publish, do_post. cbn [ps_pc].
    assert (X : n < List.length (keys rg)) by (apply nth_error_Some; congruence). rewrite length_keys in X.
    assert (Ll : List.length lg = n). { rewrite Hl. unfold pub_posts. rewrite map_length, firstn_length, length_keys. lia. }
    rewrite Ll. assert (A : accepted (ans n)) by (apply Ha; lia). apply post_result_accepted in A as (d & ->). split; [exact I|lia].
Qed.
Lemma pub_run_snoc ans port app reg l o : pub_run ans port app reg (l ++ [o]) = pub_step ans port app o (pub_run ans port app reg l).
Proof. unfold pub_run. rewrite fold_left_app. reflexivity. Qed.
Lemma pub_all_inv ans port app reg l : (forall k, k < List.length reg -> accepted (ans k)) -> (forall name, registers l name -> In name (keys reg)) ->
  let s := pub_run ans port app reg l in good_end s /\ quiet reg s /\ pleft s <= 2 * List.length reg + 1 - turns l.
Proof.
  intros Ha. cbv zeta. induction l as [|o l IH] using rev_ind; intros Hr.
  - split; [exact I|]. split; [split; reflexivity|]. cbn. lia.
  - assert (Hr' : forall name, registers l name -> In name (keys reg)) by (intros nm (sv & H); apply Hr; exists sv; apply in_or_app; auto).
    destruct (IH Hr') as (G & Q & W). rewrite pub_run_snoc. set (s := pub_run ans port app reg l) in *. unfold turns. rewrite filter_app, app_length. fold (turns l).
    assert (Q' : quiet reg (pub_step ans port app o s)) by (apply quiet_step; [exact Q|]; intros nm sv ->; apply Hr; exists sv; apply in_or_app; right; left; reflexivity).
    destruct o as [|nm sv]; cbn [filter List.length].
    + destruct (good_go ans port app reg s Ha (pok_run ans port app reg l) Q G) as (G' & W'). split; [exact G'|]. split; [exact Q'|]. lia.
    + split; [exact G|]. split; [exact Q'|]. change (pleft s <= 2 * List.length reg + 1 - (turns l + 0)). lia.
Qed.
Lemma pub_all ans port app reg l : (forall k, k < List.length reg -> accepted (ans k)) -> (forall name, registers l name -> In name (keys reg)) ->
  let s := pub_run ans port app reg l in (forall e, ps_pc s <> PDone (Raise e)) /\ (2 * List.length reg + 1 <= turns l -> ps_pc s = PDone (Ok tt) /\ map published_name (ps_log s) = map Some (keys reg)).
Proof.
  intros Ha Hr s. destruct (pub_all_inv ans port app reg l Ha Hr) as (G & (Q1 & _) & W). fold s in G, Q1, W. split.
  - intros e E. unfold good_end in G. rewrite E in G. exact G.
  - intros L. assert (E : ps_pc s = PDone (Ok tt)). { unfold pleft in W. unfold good_end in G. destruct (ps_pc s) as [| |[[]|]]; [lia|lia|reflexivity|destruct G]. }
    split; [exact E|]. destruct (pok_run ans port app reg l) as (_ & n & Hl & Hn & _ & Hp). fold s in Hl, Hn, Hp. rewrite E in Hp. rewrite Hl, published_names, Q1. rewrite firstn_all2; [reflexivity|rewrite length_keys; exact Hp].
Qed.
