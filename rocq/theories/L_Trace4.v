(** Rpc ids of spans derived from one root are distinct only when every follows-from refers to the latest
    span under its parent (converse of [spans_distinct]). *)
From Coq Require Import ZArith Lia List Bool Strings.String.
From Verif Require Import PyBase PyDict PyInt M_RpcId M_Trace S_Rpc L_RpcId L_Trace L_Trace2.
Import ListNotations.
Open Scope Z_scope.

(** a span that is not the latest under its parent has a successor numbered one more *)
Definition dnext (h : list rpcobj) : Prop := forall i j oi oj l k, (i < j)%nat ->
  nth_error h i = Some oi -> nth_error h j = Some oj -> r_parent oi = r_parent oj -> r_ids oi = l ++ [SInt k] ->
  exists n o, nth_error h n = Some o /\ r_ids o = l ++ [SInt (k + 1)].

Lemma latest_dec (h : list rpcobj) p i : (exists j oj, (i < j)%nat /\ nth_error h j = Some oj /\ r_parent oj = p) \/
  (forall j oj, (i < j)%nat -> nth_error h j = Some oj -> r_parent oj <> p).
Proof.
  induction h as [|o h IH] using rev_ind.
  - right. intros j oj _ Hj. destruct j; discriminate.
  - destruct IH as [(j & oj & A & B & C)|IH].
    + left. exists j, oj. split; [exact A|]. split; [rewrite nth_error_app1; [exact B|apply nth_error_Some; congruence]|exact C].
    + destruct (Nat.lt_ge_cases i (List.length h)) as [Hlt|Hge].
      * assert (Dp : {r_parent o = p} + {r_parent o <> p}) by (decide equality; apply Nat.eq_dec).
        destruct Dp as [E|E].
        -- left. exists (List.length h), o. split; [exact Hlt|]. split; [rewrite nth_error_app2, Nat.sub_diag by lia; reflexivity|exact E].
        -- right. intros j oj Hj Hoj. apply nth_error_snoc in Hoj as [Hoj|[-> ->]]; [exact (IH j oj Hj Hoj)|exact E].
      * right. intros j oj Hj Hoj. apply nth_error_snoc in Hoj as [Hoj|[-> ->]]; [exact (IH j oj Hj Hoj)|lia].
Qed.

Lemma dnext_extend h h' o : dnext h -> List.length h' = List.length h -> same_ids h h' ->
  (forall i oi l k, nth_error h i = Some oi -> r_parent oi = r_parent o -> r_ids oi = l ++ [SInt k] ->
     (forall j oj, (i < j)%nat -> nth_error h j = Some oj -> r_parent oj <> r_parent o) -> r_ids o = l ++ [SInt (k + 1)]) ->
  dnext (h' ++ [o]).
Proof.
  intros N L Sm Last i j oi oj l k Hij Hi Hj Hp Hk.
  assert (Old : forall i oi, nth_error h' i = Some oi -> exists q, nth_error h i = Some q /\ r_ids q = r_ids oi /\ r_parent q = r_parent oi).
  { intros a oa Ha. assert (Hlt : (a < List.length h)%nat) by (rewrite <- L; apply nth_error_Some; congruence).
    apply nth_error_Some in Hlt. destruct (nth_error h a) as [q|] eqn:Eq; [|congruence].
    destruct (Sm a q Eq) as (q' & A & B & C). exists q. rewrite A in Ha. injection Ha as <-. auto. }
  assert (Keep : forall n on m, nth_error h n = Some on -> r_ids on = m -> exists n o', nth_error (h' ++ [o]) n = Some o' /\ r_ids o' = m).
  { intros n on m Hn Hm. destruct (Sm n on Hn) as (q' & A & B & _). exists n, q'. split; [rewrite nth_error_app1; [exact A|apply nth_error_Some; congruence]|congruence]. }
  assert (Hi' : nth_error h' i = Some oi).
  { apply nth_error_snoc in Hi as [Hi|[-> _]]; [exact Hi|]. assert (j < List.length (h' ++ [o]))%nat by (apply nth_error_Some; congruence). rewrite app_length in H. cbn in H. lia. }
  destruct (Old i oi Hi') as (qi & Qi & Ii & Pi).
  destruct (latest_dec h (r_parent oi) i) as [(j0 & oj0 & A & B & C)|No].
  - destruct (N i j0 qi oj0 l k A Qi B ltac:(congruence) ltac:(congruence)) as (n & on & Hn & Hm). exact (Keep n on _ Hn Hm).
  - apply nth_error_snoc in Hj as [Hj|[-> ->]].
    + exfalso. destruct (Old j oj Hj) as (qj & Qj & Ij & Pj). apply (No j qj Hij Qj). congruence.
    + exists (List.length h'), o. split; [rewrite nth_error_app2, Nat.sub_diag by lia; reflexivity|].
      apply (Last i qi l k Qi ltac:(congruence) ltac:(congruence)). intros j oj H1 H2. rewrite <- Hp. exact (No j oj H1 H2).
Qed.

Lemma refers_pre a b : refers_to_existing (a ++ b) -> refers_to_existing a.
Proof. intros H pre k c post E. apply (H pre k c (post ++ b)). rewrite E, <- app_assoc. reflexivity. Qed.
Lemma latest_pre a b : follows_latest (a ++ b) -> follows_latest a.
Proof. intros H pre c post E. apply (H pre c (post ++ b)). rewrite E, <- app_assoc. reflexivity. Qed.

Lemma dnext_derive U base k0 ops :
  let root := {| r_ids := base ++ [SInt k0]; r_count := 0; r_parent := None |} in
  normal U (base ++ [SInt k0]) -> refers_to_existing ops -> follows_latest ops -> dnext (derive U [root] ops).
Proof.
  intros root Hn. induction ops as [|[k c] ops IH] using rev_ind; intros He Hf.
  - cbn [derive]. intros i j oi oj l kk Hij Hi Hj. destruct j as [|j]; [lia|]. destruct j; discriminate.
  - pose proof (refers_pre _ _ He) as He'. pose proof (latest_pre _ _ Hf) as Hf'. specialize (IH He' Hf').
    pose proof (dinv_derive U base k0 ops Hn He' Hf') as D. cbv zeta in D. fold root in D.
    pose proof (He ops k c [] eq_refl) as Hc.
    rewrite derive_app. remember (derive U [root] ops) as h eqn:Eh. cbn [derive].
    assert (Hlt : (c < List.length h)%nat). { rewrite (d_len _ _ _ _ D), length_parents. lia. }
    destruct (nth_error h c) as [oc|] eqn:Ec; [|apply nth_error_None in Ec; lia].
    pose proof (d_norm _ _ _ _ D c oc Ec) as Noc.
    destruct k; cbn [opkind new_by_reference_type].
    + rewrite (new_child_spec U h c oc Ec Noc). cbn [fst].
      apply (dnext_extend h); [exact IH|apply length_bump|apply same_ids_bump|].
      cbn [r_parent r_ids]. intros i oi l z Hi Hp Hz No.
      pose proof (d_last _ _ _ _ D i oi c oc l z Hi Hp Ec No Hz) as ->.
      destruct (d_child _ _ _ _ D i oi c Hi Hp) as (_ & op & kk & Hop & E & _). assert (op = oc) by congruence. subst op.
      rewrite Hz in E. apply app_inj_int in E as [-> _]. reflexivity.
    + pose proof Noc as Noc'. apply normal_snoc in Noc' as (l & z & Hz & Hfl). rewrite (new_follows_spec U h c oc l z Ec Noc Hz). cbn [fst].
      assert (Hlast : forall j oj, (c < j)%nat -> nth_error h j = Some oj -> r_parent oj <> r_parent oc).
      { intros j oj Hj Hoj. rewrite (d_par _ _ _ _ D j oj Hoj), (d_par _ _ _ _ D c oc Ec). apply (Hf ops c [] eq_refl).
        assert (j < List.length h)%nat by (apply nth_error_Some; congruence). rewrite (d_len _ _ _ _ D), length_parents in H. lia. }
      apply (dnext_extend h); [exact IH|destruct (r_parent oc); [apply length_bump|reflexivity]|destruct (r_parent oc); [apply same_ids_bump|apply same_ids_refl]|].
      cbn [r_parent r_ids]. intros i oi l' z' Hi Hp Hz' No.
      assert (i = c). { destruct (Nat.lt_trichotomy i c) as [H|[H|H]]; [|exact H|]; exfalso; [exact (No c oc H Ec eq_refl)|exact (Hlast i oi H Hi Hp)]. }
      subst i. assert (oi = oc) by congruence. subst oi. rewrite Hz in Hz'. apply app_inj_int in Hz' as [-> ->]. reflexivity.
Qed.

(** two different spans with one id *)
Definition repeated (h : list rpcobj) : Prop := exists i j oi oj, i <> j /\ nth_error h i = Some oi /\ nth_error h j = Some oj /\ r_ids oi = r_ids oj.

Lemma normal_derive U h ops : heap_normal U h -> (forall pre k c post, ops = pre ++ (k, c) :: post -> (c < List.length h + List.length pre)%nat) ->
  heap_normal U (derive U h ops) /\ List.length (derive U h ops) = (List.length h + List.length ops)%nat.
Proof.
  revert h. induction ops as [|[k c] ops IH]; intros h Hh Hc; cbn [derive length]; [split; [exact Hh|lia]|].
  assert (Hlt : (c < List.length h)%nat) by (pose proof (Hc [] k c ops eq_refl); cbn in *; lia).
  destruct (new_ref_spec U h c (opkind k) Hh Hlt) as (h' & o & E & L & _ & _ & Hn). rewrite E. cbn [fst].
  destruct (IH (h' ++ [o]) Hn) as [A B].
  - intros pre k' c' post E'. specialize (Hc ((k, c) :: pre) k' c' post ltac:(cbn; f_equal; exact E')). rewrite app_length. cbn [length] in *. lia.
  - split; [exact A|]. rewrite B, app_length. cbn [length]. lia.
Qed.

Lemma repeated_derive U base k0 ops :
  let root := {| r_ids := base ++ [SInt k0]; r_count := 0; r_parent := None |} in
  normal U (base ++ [SInt k0]) -> refers_to_existing ops -> follows_latest ops \/ repeated (derive U [root] ops).
Proof.
  intros root Hn. induction ops as [|[k c] ops IH] using rev_ind; intros He.
  - left. intros pre c post E. destruct pre; discriminate.
  - pose proof (refers_pre _ _ He) as He'. pose proof (He ops k c [] eq_refl) as Hc. specialize (IH He').
    assert (N1 : heap_normal U [root]). { intros [|i] o H; cbn in H; [injection H as <-; exact Hn|destruct i; discriminate]. }
    destruct (normal_derive U [root] ops N1) as [Nh Lh].
    { intros pre k' c' post E. cbn [length]. specialize (He' pre k' c' post E). lia. }
    cbn [length] in Lh. rewrite derive_app. destruct IH as [Hf|(i & j & oi & oj & Hne & Hi & Hj & Hij)].
    + pose proof (dinv_derive U base k0 ops Hn He' Hf) as D. cbv zeta in D. fold root in D.
      pose proof (dnext_derive U base k0 ops Hn He' Hf) as N. cbv zeta in N. fold root in N.
      remember (derive U [root] ops) as h eqn:Eh. cbn [derive].
      destruct k.
      * left. intros pre c' post E. destruct post as [|x post] using rev_ind.
        -- apply app_inj_tail in E as [_ E]. discriminate.
        -- clear IHpost. rewrite app_comm_cons, app_assoc in E. apply app_inj_tail in E as [E _]. exact (Hf pre c' post E).
      * destruct (nth_error h c) as [oc|] eqn:Ec; [|apply nth_error_None in Ec; lia].
        destruct (latest_dec h (r_parent oc) c) as [(j & oj & A & B & C)|No].
        -- right. pose proof (Nh c oc Ec) as Noc. pose proof Noc as Noc'. apply normal_snoc in Noc' as (l & z & Hz & Hfl).
           destruct (N c j oc oj l z A Ec B (eq_sym C) Hz) as (n & on & Hn' & Hid).
           cbn [opkind new_by_reference_type]. rewrite (new_follows_spec U h c oc l z Ec Noc Hz). cbn [fst].
           assert (L : List.length (match r_parent oc with Some p => bump p h | None => h end) = List.length h) by (destruct (r_parent oc); [apply length_bump|reflexivity]).
           assert (Sm : same_ids h (match r_parent oc with Some p => bump p h | None => h end)) by (destruct (r_parent oc); [apply same_ids_bump|apply same_ids_refl]).
           destruct (Sm n on Hn') as (q' & A' & B' & _). assert (n < List.length h)%nat by (apply nth_error_Some; congruence).
           exists n, (List.length h), q'. eexists. split; [lia|]. split; [rewrite nth_error_app1 by (rewrite L; lia); exact A'|].
           split; [rewrite nth_error_app2, L, Nat.sub_diag by lia; reflexivity|]. cbn [r_ids]. congruence.
        -- left. intros pre c' post E. destruct post as [|x post] using rev_ind.
           ++ apply app_inj_tail in E as [<- E]. injection E as <-. intros i Hi.
              assert (Hl : (i < List.length h)%nat) by lia. apply nth_error_Some in Hl. destruct (nth_error h i) as [oi|] eqn:Ei; [|congruence].
              rewrite <- (d_par _ _ _ _ D i oi Ei), <- (d_par _ _ _ _ D c oc Ec). apply (No i oi); [lia|exact Ei].
           ++ clear IHpost. rewrite app_comm_cons, app_assoc in E. apply app_inj_tail in E as [E _]. exact (Hf pre c' post E).
    + right. remember (derive U [root] ops) as h eqn:Eh. cbn [derive].
      destruct (new_ref_spec U h c (opkind k) Nh ltac:(lia)) as (h' & o & E & L & Sm & _ & _). rewrite E. cbn [fst].
      destruct (Sm i oi Hi) as (qi & Ai & Bi & _). destruct (Sm j oj Hj) as (qj & Aj & Bj & _).
      exists i, j, qi, qj. split; [exact Hne|]. split; [rewrite nth_error_app1; [exact Ai|apply nth_error_Some; congruence]|].
      split; [rewrite nth_error_app1; [exact Aj|apply nth_error_Some; congruence]|congruence].
Qed.

Lemma root_heap U root :
  (exists name tags fresh, root = TStart name None tags fresh) \/ (exists carrier fresh, root = TExtract carrier fresh) ->
  List.length (t_ctxs (tstep U t_init root)) = 1%nat ->
  exists base k0, t_rpcs (tstep U t_init root) = [{| r_ids := base ++ [SInt k0]; r_count := 0; r_parent := None |}] /\ normal U (base ++ [SInt k0]).
Proof.
  intros Hroot Hl. destruct (tstep_spec U t_init root (t_init_twf U)) as [W0 _]. remember (tstep U t_init root) as st0 eqn:E0.
  assert (K : forall ids, t_rpcs st0 = t_rpcs t_init ++ [{| r_ids := ids; r_count := 0; r_parent := None |}] -> exists base k0, t_rpcs st0 = [{| r_ids := base ++ [SInt k0]; r_count := 0; r_parent := None |}] /\ normal U (base ++ [SInt k0])).
  { intros ids Hids. pose proof (w_norm _ _ W0 0%nat {| r_ids := ids; r_count := 0; r_parent := None |} ltac:(rewrite Hids; reflexivity)) as N. cbn in N.
    pose proof N as N'. apply normal_snoc in N' as (l & z & -> & _). exists l, z. auto. }
  destruct Hroot as [(name & tags & fresh & ->)|(carrier & fresh & ->)].
  - cbn [tstep] in E0. unfold start_span in E0.
    pose proof (context_root_spec U t_init [] fresh (t_init_twf U) (NoDup_nil _) eq_refl eq_refl) as R. change (root_ids []) with (str "1") in R.
    destruct (mk_rpcid U (map SStr (split_dot (str "1")))) as [ids|e] eqn:Em.
    + destruct R as (st1 & R & R1 & _). rewrite R in E0. apply (K ids). destruct (apply_tags (keys tags) []); cbn in E0; subst st0; exact R1.
    + rewrite R in E0. cbn in E0. subst st0. discriminate.
  - cbn [tstep] in E0. pose proof (extract_spec U t_init carrier fresh (t_init_twf U)) as R. destruct (extract U t_init carrier fresh) as [st1 r].
    cbn in E0. subst st1. destruct R as [[_ ->]|(ids & _ & _ & R1 & _)]; [discriminate|]. apply (K ids R1).
Qed.

Lemma spans_distinct_iff U root ops : tables_ok U ->
  (exists name tags fresh, root = TStart name None tags fresh) \/ (exists carrier fresh, root = TExtract carrier fresh) ->
  List.length (t_ctxs (tstep U t_init root)) = 1%nat -> refers_to_existing ops ->
  let st := trun U (tstep U t_init root) (map derivation ops) in
  (forall i j bi bj, baggage_text st i = Some bi -> baggage_text st j = Some bj -> dget K_rpc bi = dget K_rpc bj -> i = j) <-> follows_latest ops.
Proof.
  intros HU Hroot Hl He. cbv zeta. split; [|intros Hf; exact (proj2 (spans_distinct U root ops HU Hroot Hl He Hf))].
  intros Hd. destruct (root_heap U root Hroot Hl) as (base & k0 & Hr & Hn). destruct (tstep_spec U t_init root (t_init_twf U)) as [W0 _].
  destruct (repeated_derive U base k0 ops Hn He) as [Hf|(i & j & oi & oj & Hne & Hi & Hj & Hij)]; [exact Hf|]. exfalso. apply Hne.
  rewrite <- Hr in Hi, Hj.
  assert (HD : t_rpcs (trun U (tstep U t_init root) (map derivation ops)) = derive U (t_rpcs (tstep U t_init root)) ops).
  { apply trun_derive; [exact W0|]. intros pre k c post E. rewrite Hl. specialize (He pre k c post E). lia. }
  rewrite <- HD in Hi, Hj. destruct (trun_spec U (map derivation ops) _ W0) as [W _].
  assert (B : forall n o, nth_error (t_rpcs (trun U (tstep U t_init root) (map derivation ops))) n = Some o ->
    exists b, baggage_text (trun U (tstep U t_init root) (map derivation ops)) n = Some b /\ dget K_rpc b = Some (rpcid_str (r_ids o))).
  { intros n o Hno. assert (Hlt : (n < List.length (t_ctxs (trun U (tstep U t_init root) (map derivation ops))))%nat) by (rewrite <- (w_len _ _ W); apply nth_error_Some; congruence).
    apply nth_error_Some in Hlt. assert (Hb : exists b, baggage_text (trun U (tstep U t_init root) (map derivation ops)) n = Some b).
    { unfold baggage_text. destruct (nth_error (t_ctxs (trun U (tstep U t_init root) (map derivation ops))) n); [eexists; reflexivity|congruence]. }
    destruct Hb as [b Hb]. exists b. split; [exact Hb|]. destruct (text_rpc _ _ _ _ W Hb) as (o' & Ho' & E). congruence. }
  destruct (B i oi Hi) as (bi & Hbi & Ri). destruct (B j oj Hj) as (bj & Hbj & Rj). apply (Hd i j bi bj Hbi Hbj). rewrite Ri, Rj, Hij. reflexivity.
Qed.
