(** Lemmas behind C79 and C80. *)
From Coq Require Import Strings.String ZifyBool.
From Verif Require Import PyBase L_PyBase PyDict L_PyDict PyInt M_SofaHeader M_Package L_Package M_RpcId M_Trace S_Wire M_SyncClient L_SyncClient
  M_AioServer S_Server L_AioServer L_AioServer2 L_AioServer3 L_AioServer4 L_AioServer5 L_AioServer6 L_AioServer7 L_AioServer8 L_AioServer9 M_SockServer S_SockServer L_SockServer M_System S_System L_System M_SyncSystem S_SyncSystem.
Open Scope Z_scope.

(** a prefix of one unit contains that unit or none *)
Lemma cuts_part bs i got items rest : one bs i -> nonfatal i -> prefix_of got bs -> cuts got items rest -> items = [] \/ (items = [i] /\ got = bs).
Proof.
  intros O N (x & E) C. destruct C as [b|a j r O' F|a j b l r O' F C']; [left; reflexivity|right..].
  - rewrite <- app_assoc in E. destruct (one_fun a bs (r ++ x) [] j i O' O) as (-> & E' & ->); [rewrite app_nil_r; symmetry; assumption|]. apply app_eq_nil in E' as (-> & ->). rewrite app_nil_r. auto.
  - rewrite <- app_assoc in E. destruct (one_fun a bs (b ++ x) [] j i O' O) as (-> & E' & ->); [rewrite app_nil_r; symmetry; assumption|]. apply app_eq_nil in E' as (-> & ->). rewrite app_nil_r. split; [|reflexivity].
    inversion C' as [|a' j' r' O2 F2 Z|a' j' b' l' r' O2 F2 C2 Z]; [reflexivity| |]; exfalso; exact (one_some _ _ _ O2 Z).
Qed.
Lemma begins_part bs i got j : one bs i -> prefix_of got bs -> begins got j -> j = i /\ got = bs.
Proof.
  intros O (x & E) (a & r & Eg & O'). subst got. rewrite <- app_assoc in E. destruct (one_fun a bs (r ++ x) [] j i O' O) as (-> & E' & ->); [rewrite app_nil_r; symmetry; assumption|].
  apply app_eq_nil in E' as (-> & ->). rewrite app_nil_r. auto.
Qed.

(** ** What the client writes *)
Lemma wrote_prefix d h ptype timeout rid atts log r c :
  build_header (y_baggage d) (y_interface d) (y_method d) (y_app d) (y_uid d) (y_extra d) = Ok h ->
  raw_invoke h (PBytes (y_content d)) ptype timeout rid atts = (log, r) ->
  wrote c log = [] \/ exists bs q k, log = [(c, py_take k bs)] /\ one bs (IRequest q) /\ q_id q = rid /\ q_body q = y_content d /\ names_of d (q_header q).
Proof.
  intros Bh R. unfold raw_invoke in R. destruct (new_request h (PBytes (y_content d)) ptype (py_or timeout (PInt (-1))) rid) as [p|e] eqn:N; [|injection R as <- _; left; reflexivity].
  assert (L : forall l conn, fst (send_loop p l conn) = [] \/ exists cn bs k, to_stream p = Ok bs /\ fst (send_loop p l conn) = [(cn, py_take k bs)]).
  { induction l as [|a l IH]; intros conn; cbn [send_loop]; [left; reflexivity|].
    destruct (a_conn a) as [cn|e]; [|destruct e; cbn [fst]; auto]. destruct (to_stream p) as [bs|e] eqn:T; [|destruct e; cbn [fst]; auto].
    destruct (a_send a) as [k|e]; [right; exists cn, bs, k; auto|destruct e; cbn [fst]; auto]. }
  assert (El : log = fst (send_loop p [atts 0%nat; atts 1%nat; atts 2%nat] None)) by (destruct (send_loop p [atts 0%nat; atts 1%nat; atts 2%nat] None) as [l [cn|]]; injection R as <- _; reflexivity).
  destruct (L [atts 0%nat; atts 1%nat; atts 2%nat] None) as [E|(cn & bs & k & T & E)]; rewrite E in El; subst log; [left; reflexivity|].
  destruct (Nat.eqb_spec cn c) as [->|Nc]; [|left; unfold wrote; cbn; destruct (Nat.eqb_spec cn c); [contradiction|reflexivity]].
  right. set (d' := {| y_baggage := y_baggage d; y_interface := y_interface d; y_method := y_method d; y_app := y_app d; y_uid := y_uid d; y_extra := y_extra d; y_content := y_content d; y_ptype := ptype; y_timeout := py_or timeout (PInt (-1)) |}).
  assert (Er : y_request d' rid = Ok p) by (unfold y_request; cbn; rewrite Bh; exact N). destruct (call_unit d' rid p bs Er T) as (q & O & A & B & C).
  exists bs, q, k. split; [reflexivity|]. split; [exact O|]. split; [exact A|]. split; [exact B|exact C].
Qed.
Lemma wrote_one c x : wrote c [(c, x)] = x.
Proof. unfold wrote. cbn. rewrite Nat.eqb_refl. cbn. apply app_nil_r. Qed.
Lemma take_prefix {A} k (l : list A) : prefix_of (py_take k l) l.
Proof. exists (py_drop k l). symmetry. apply py_take_drop. Qed.
Lemma prefix_trans {A} (a b c : list A) : prefix_of a b -> prefix_of b c -> prefix_of a c.
Proof. intros (x & ->) (y & ->). exists (x ++ y). rewrite app_assoc. reflexivity. Qed.
Lemma prefix_nil {A} (a : list A) : prefix_of a [] -> a = [].
Proof. intros (x & E). symmetry in E. apply app_eq_nil in E as (-> & _). reflexivity. Qed.

(** ** What is executed *)
Lemma far_nothing U x : far_got x = [] -> far_calls U x = [].
Proof.
  destruct x as [fuel reg tr fresh call w net|reg tr l]; cbn [far_got far_calls]; intros E.
  - destruct (proj2 (sock_effects fuel U reg tr fresh call w net)) as [->|(q & sv & m & c & (a & r & Ea & O) & _)]; [reflexivity|]. rewrite E in Ea. exfalso. exact (one_some _ _ _ O (eq_sym Ea)).
  - destruct (executions U (sinit reg tr) l) as [|(((n, sv), m), b) es] eqn:Ex; [reflexivity|]. exfalso.
    destruct (executions_named U reg tr l n sv m b) as (items & rest & q & C & Nx & _); [rewrite Ex; left; reflexivity|]. rewrite E in C.
    inversion C as [|a j r O F Z|a j b' l' r O F C' Z]; subst; [destruct n; discriminate| |]; exact (one_some _ _ _ O Z).
Qed.
Lemma far_one U x d bs q : one bs (IRequest q) -> q_body q = y_content d -> names_of d (q_header q) -> prefix_of (far_got x) bs ->
  far_calls U x = [] \/ far_calls U x = [(y_interface d, y_method d, y_content d)].
Proof.
  intros O B N P. destruct x as [fuel reg tr fresh call w net|reg tr l]; cbn [far_got far_calls] in *.
  - destruct (proj2 (sock_effects fuel U reg tr fresh call w net)) as [->|(q' & sv & m & c & Be & Ns & Nm & _ & _ & ->)]; [left; reflexivity|right].
    destruct (begins_part _ _ _ _ O P Be) as (E & _). injection E as ->. cbn. rewrite (names_interface d _ _ N Ns), (names_the_method d _ _ N Nm), B. reflexivity.
  - assert (K : forall n sv m b, In (n, sv, m, b) (executions U (sinit reg tr) l) -> n = 0%nat /\ sv = y_interface d /\ m = y_method d /\ b = y_content d).
    { intros n sv m b H. destruct (executions_named U reg tr l n sv m b H) as (items & rest & q' & C & Nx & Ns & Nm & ->).
      destruct (cuts_part _ _ _ _ _ O (fun F => F) P C) as [->|(-> & _)]; [destruct n; discriminate|]. destruct n as [|[|n]]; try discriminate. injection Nx as ->.
      split; [reflexivity|]. split; [exact (names_interface d _ _ N Ns)|]. split; [exact (names_the_method d _ _ N Nm)|exact B]. }
    pose proof (executions_once U l (sinit reg tr) (good_init reg tr)) as Nd. destruct (executions U (sinit reg tr) l) as [|(((n, sv), m), b) es]; [left; reflexivity|right].
    destruct (K n sv m b (or_introl eq_refl)) as (-> & -> & -> & ->). destruct es as [|(((n', sv'), m'), b') es]; [reflexivity|]. exfalso.
    destruct (K n' sv' m' b' (or_intror (or_introl eq_refl))) as (-> & _). inversion Nd as [|? ? H _]; subst. apply H. left. reflexivity.
Qed.
Lemma sync_executed U d h ptype timeout rid atts log r (f : nat -> far) :
  build_header (y_baggage d) (y_interface d) (y_method d) (y_app d) (y_uid d) (y_extra d) = Ok h ->
  raw_invoke h (PBytes (y_content d)) ptype timeout rid atts = (log, r) -> (forall c, prefix_of (far_got (f c)) (wrote c log)) ->
  (forall c, far_calls U (f c) = []) \/ exists c, far_calls U (f c) = [(y_interface d, y_method d, y_content d)] /\ forall c', c' <> c -> far_calls U (f c') = [].
Proof.
  intros Bh R P.
  assert (K : forall c, wrote c log = [] -> far_calls U (f c) = []) by (intros c E; apply far_nothing; specialize (P c); rewrite E in P; exact (prefix_nil _ P)).
  assert (L : (List.length log <= 1)%nat) by (eapply raw_log; exact R). destruct log as [|(c, x) [|? ?]]; [left; intros c; apply K; reflexivity| |cbn in L; lia].
  assert (Oth : forall c', c' <> c -> far_calls U (f c') = []).
  { intros c' N. apply K. unfold wrote. cbn. destruct (Nat.eqb_spec c c'); [congruence|reflexivity]. }
  destruct (wrote_prefix d h ptype timeout rid atts _ r c Bh R) as [E|(bs & q & k & E & O & A & B & C)].
  - left. intros c'. destruct (Nat.eq_dec c' c) as [->|N]; [apply K; exact E|apply Oth; exact N].
  - injection E as ->. specialize (P c). rewrite wrote_one in P. destruct (far_one U (f c) d bs q O B C (prefix_trans _ _ _ P (take_prefix k bs))) as [F|F]; [|right; exists c; auto].
    left. intros c'. destruct (Nat.eq_dec c' c) as [->|N]; [exact F|apply Oth; exact N].
Qed.

(** ** What is returned *)
Lemma layout_len frame f : response_layout frame f -> frame <> [].
Proof. intros L E. subst. apply resp_layout_iff in L as (L & _). cbv in L. congruence. Qed.
Lemma layout_fun frame f g : response_layout frame f -> response_layout frame g -> f = g.
Proof. intros A B. apply resp_layout_iff in A as (_ & _ & ->). apply resp_layout_iff in B as (_ & _ & ->). reflexivity. Qed.
(** the first frame of what arrives is the first frame that was sent *)
Lemma first_frame frame f tail outs : response_layout frame f -> (forall o, In o outs -> exists id cmd st c, response o id cmd st c) -> prefix_of (frame ++ tail) (concat outs) -> In frame outs.
Proof.
  intros A R (x & E). destruct outs as [|o outs]; [exfalso; cbn in E; symmetry in E; rewrite <- app_assoc in E; apply app_eq_nil in E as (E & _); exact (layout_len _ _ A E)|].
  left. destruct (R o (or_introl eq_refl)) as (id & cmd & st & c & g & B & _). cbn [concat] in E. rewrite <- app_assoc in E. exact (L_Codec.resp_prefix_free _ _ _ _ _ _ B A E).
Qed.
(** the server has received a part of one request, the client the answer to it: it is what the method returned *)
Lemma far_value U d x frame tail f : (far_got x = [] \/ exists bs q, one bs (IRequest q) /\ q_body q = y_content d /\ names_of d (q_header q) /\ prefix_of (far_got x) bs) ->
  response_layout frame f -> fr_tos f = 0 -> prefix_of (frame ++ tail) (far_sent U x) -> far_returned U x (y_interface d) (y_method d) (y_content d) (fr_content f).
Proof.
  intros Re Lay Hst Pd.
  destruct x as [fuel reg tr fresh call w net|reg tr l]; cbn [far_got far_sent far_returned] in *.
  - destruct (proj1 (sock_effects fuel U reg tr fresh call w net)) as [E|(bs & (part & more & E & Eb & _) & Rf)]; rewrite E in Pd.
    + exfalso. cbn in Pd. apply prefix_nil in Pd. apply app_eq_nil in Pd as (Pd & _). exact (layout_len _ _ Lay Pd).
    + assert (Rb : exists id cmd st c, response bs id cmd st c) by (destruct Rf as [(id & _ & X & _)|[(q & _ & _ & X & _)|(q & sv & m & ct & u & _ & _ & _ & _ & _ & _ & X)]]; eauto).
      destruct (first_frame frame f tail [bs] Lay) as [<-|[]]; [intros o [<-|[]]; exact Rb|rewrite Eb; destruct Pd as (y & Pd); exists (y ++ more); cbn in Pd |- *; rewrite app_nil_r in Pd |- *; rewrite Pd, !app_assoc; reflexivity|].
      assert (Hr : forall j, begins (received net) j -> exists q, j = IRequest q /\ q_body q = y_content d /\ names_of d (q_header q)).
      { intros j Bj. destruct Re as [Z|(rb & q & O & B & C & P)]; [exfalso; destruct Bj as (a & r & Ea & O); rewrite Z in Ea; exact (one_some _ _ _ O (eq_sym Ea))|].
        destruct (begins_part _ _ _ _ O P Bj) as (-> & _). eauto. }
      destruct Rf as [(id & Be & _ & _)|[(q & Be & _ & X & _)|(q & sv & m & ct & u & Be & Ns & Nm & _ & Ec & Ev & X)]].
      * destruct (Hr _ Be) as (q & E' & _). discriminate.
      * exfalso. destruct X as (g & B & _ & _ & _ & _ & X & _). rewrite (layout_fun _ _ _ Lay B) in Hst. lia.
      * destruct (Hr _ Be) as (q' & E' & B & C). injection E' as <-. destruct X as (g & Lg & _ & _ & _ & _ & _ & X & _). rewrite (layout_fun _ _ _ Lay Lg), X.
        exists ct. rewrite <- (names_interface d _ _ C Ns), <- (names_the_method d _ _ C Nm), <- B. split; [rewrite Ec; left; reflexivity|exact Ev].
  - assert (Ho : In frame (map snd (v_out (srun U reg tr l)))).
    { apply (first_frame frame f tail _ Lay); [|exact Pd]. intros o Ho. apply in_map_iff in Ho as ((n, o') & <- & Ho). exact (outs_response U reg tr l n o' Ho). }
    apply in_map_iff in Ho as ((n, o) & Eo & Ho). cbn [snd] in Eo. subst o.
    destruct (run_cuts U reg tr l) as (rest & C). pose proof (good_run U reg tr l) as G. pose proof G as ((_ & _ & Jo) & r & fin & O). pose proof Ho as Ho'. rewrite (oo_split _ _ _ O) in Ho.
    apply in_app_iff in Ho as [Ho|Ho].
    + destruct (oo_answers _ _ _ O n frame Ho) as (y & Ny & An).
      destruct Re as [Z|(rb & q & Oq & B & Cn & P)]; [exfalso; rewrite Z in C; inversion C as [b Eb El|a j r' Oj F' Z'|a j b' l' r' Oj F' C' Z']; [rewrite <- El in Ny; destruct n; discriminate| |]; exact (one_some _ _ _ Oj Z')|].
      assert (y = IRequest q). { destruct (cuts_part _ _ _ _ _ Oq (fun F => F) P C) as [E|(E & _)]; rewrite E in Ny; [destruct n; discriminate|]. destruct n as [|[|n]]; try discriminate. injection Ny as <-. reflexivity. }
      subst y. cbn in An. destruct An as (st & ct & Rs & _). assert (Es : st = 0) by (destruct Rs as (g & Lg & _ & _ & _ & _ & X & _); rewrite (layout_fun _ _ _ Lay Lg) in Hst; lia). subst st.
      destruct (success_any U reg tr l n frame _ ct Ho' Rs) as (q' & sv & m & b & rest' & C' & Nq & _ & Hx & Ns & Nm & -> & En & _). rewrite Ny in Nq. injection Nq as <-.
      assert (Ect : ct = fr_content f) by (destruct Rs as (g & Lg & _ & _ & _ & _ & _ & X & _); rewrite (layout_fun _ _ _ Lay Lg); symmetry; exact X). subst ct.
      exists n. rewrite <- (names_interface d _ _ Cn Ns), <- (names_the_method d _ _ Cn Nm), <- B. auto.
    + exfalso. destruct (oo_fin _ _ _ O) as [->|(_ & id' & st & bs' & -> & _ & R' & L)]; [destruct Ho|]. destruct Ho as [E|[]]. injection E as _ ->.
      destruct R' as (g & Lg & _ & _ & _ & _ & X & _). rewrite (layout_fun _ _ _ Lay Lg) in Hst. destruct L as [(L & _)|(L & _)]; lia.
Qed.
Lemma sync_value U d h timeout rid atts back srv evs log v c x :
  build_header (y_baggage d) (y_interface d) (y_method d) (y_app d) (y_uid d) (y_extra d) = Ok h ->
  invoke_sync h (PBytes (y_content d)) timeout rid atts back srv evs = (log, Some (Ok v)) ->
  raw_invoke h (PBytes (y_content d)) PTYPE_REQUEST timeout rid atts = (log, Ok (rid, c)) ->
  prefix_of (far_got x) (wrote c log) -> prefix_of srv (far_sent U x) ->
  exists bs, v = PBytes bs /\ far_returned U x (y_interface d) (y_method d) (y_content d) bs.
Proof.
  intros Bh I R Pu Pd. destruct (invoke_sync_value _ _ _ _ _ _ _ _ _ _ I) as (_ & _ & _ & _ & frame & tail & f & kvs & -> & Lay & _ & _ & Hid & Hst & ->). exists (fr_content f). split; [reflexivity|].
  apply (far_value U d x frame tail f); [|exact Lay|exact Hst|exact Pd].
  destruct (wrote_prefix d h PTYPE_REQUEST timeout rid atts log _ c Bh R) as [E|(bs & q & k & -> & O & A & B & C)]; [left; rewrite E in Pu; exact (prefix_nil _ Pu)|right].
    rewrite wrote_one in Pu. exists bs, q. split; [exact O|]. split; [exact B|]. split; [exact C|]. exact (prefix_trans _ _ _ Pu (take_prefix k bs)).
Qed.
