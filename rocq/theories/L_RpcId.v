(** Rpc ids: textual round trip, distinctness, trace ids. *)
From Coq Require Import ZifyBool.
From Verif Require Import PyBase L_PyBase PyInt L_PyInt M_RequestId L_RequestId M_RpcId S_Rpc.
Ltac Zify.zify_post_hook ::= Z.div_mod_to_equations.

(** ids as stored in an RpcId: non-empty, strings are not integers, the last is an integer *)
Definition normal (U : tables) (ids : list seg) : Prop :=
  Forall (fun x => match x with SInt _ => True | SStr s => parse_int U s = None end) ids /\
  exists z, last ids (SStr []) = SInt z.
Definition no_dots (ids : list seg) : Prop := Forall (fun x => match x with SInt _ => True | SStr s => ~ In 46 s end) ids.

Lemma last_default {A} (l : list A) d d' : l <> [] -> last l d = last l d'.
Proof. induction l as [|x l IH]; intros H; [congruence|]. destruct l as [|y l]; [reflexivity|]. apply IH. discriminate. Qed.

Lemma last_snoc {A} (l : list A) x d : last (l ++ [x]) d = x.
Proof. induction l as [|y l IH]; [reflexivity|]. destruct l; [reflexivity|exact IH]. Qed.

Lemma normal_nonempty U ids : normal U ids -> ids <> [].
Proof. intros [_ [z Hz]] ->. discriminate. Qed.

Lemma normal_snoc U ids : normal U ids <-> exists l z, ids = l ++ [SInt z] /\
  Forall (fun x => match x with SInt _ => True | SStr s => parse_int U s = None end) l.
Proof.
  split.
  - intros [Hf [z Hz]]. destruct ids as [|x ids] using rev_ind; [discriminate|]. rewrite last_snoc in Hz. subst x.
    exists ids, z. split; [reflexivity|]. apply Forall_app in Hf. apply Hf.
  - intros (l & z & -> & Hf). split; [apply Forall_app; split; [exact Hf|constructor; auto]|]. exists z. apply last_snoc.
Qed.

Lemma innertrans_normal U x : match innertrans U x with SInt _ => True | SStr s => parse_int U s = None end.
Proof. destruct x as [z|s]; cbn; [exact I|]. destruct (parse_int U s) eqn:E; [exact I|exact E]. Qed.

Lemma innertrans_id U x : match x with SInt _ => True | SStr s => parse_int U s = None end -> innertrans U x = x.
Proof. destruct x as [z|s]; cbn; [reflexivity|]. intros ->. reflexivity. Qed.

Lemma map_innertrans_id U l : Forall (fun x => match x with SInt _ => True | SStr s => parse_int U s = None end) l -> map (innertrans U) l = l.
Proof. induction 1 as [|x l H _ IH]; [reflexivity|]. cbn [map]. rewrite IH, innertrans_id by exact H. reflexivity. Qed.

Lemma mk_rpcid_normal U l ids : mk_rpcid U l = Ok ids -> normal U ids.
Proof.
  unfold mk_rpcid. destruct l as [|x l].
  - intros H. injection H as <-. split; [constructor; auto|]. exists 1. reflexivity.
  - remember (map (innertrans U) (x :: l)) as m eqn:Em. destruct (last m (SInt 1)) as [z|s] eqn:El; intros H; [|discriminate].
    injection H as <-. split.
    + rewrite Em. apply Forall_forall. intros y Hy. apply in_map_iff in Hy as (w & <- & _). apply innertrans_normal.
    + exists z. rewrite <- El. apply last_default. rewrite Em. discriminate.
Qed.

Lemma mk_rpcid_id U ids : normal U ids -> mk_rpcid U ids = Ok ids.
Proof.
  intros Hn. pose proof (normal_nonempty _ _ Hn) as Hne. destruct Hn as [Hf [z Hz]]. unfold mk_rpcid.
  destruct ids as [|x l]; [congruence|]. rewrite map_innertrans_id by exact Hf.
  rewrite (last_default _ (SInt 1) (SStr [])), Hz by discriminate. reflexivity.
Qed.

Lemma mk_rpcid_no_dots U l ids : mk_rpcid U l = Ok ids -> no_dots l -> no_dots ids.
Proof.
  unfold mk_rpcid, no_dots. destruct l as [|x l].
  - intros H _. injection H as <-. constructor; auto.
  - remember (x :: l) as xl. destruct (last (map (innertrans U) xl) (SInt 1)); [|discriminate]. intros H. injection H as <-.
    intros Hd. apply Forall_forall. intros y Hy. apply in_map_iff in Hy as (w & <- & Hw).
    rewrite Forall_forall in Hd. specialize (Hd w Hw). destruct w as [q|q]; cbn; [exact I|]. destruct (parse_int U q); [exact I|exact Hd].
Qed.

Section Text.
  Variable U : tables.
  Hypothesis HU : tables_ok U.

  Lemma innertrans_seg_str x : match x with SInt _ => True | SStr s => parse_int U s = None end -> innertrans U (SStr (seg_str x)) = x.
  Proof. destruct x as [z|s]; cbn [seg_str innertrans]; intros H; [rewrite (parse_str_int U HU); reflexivity|rewrite H; reflexivity]. Qed.

  Lemma no_dot_segs ids : no_dots ids -> Forall (fun s => ~ In 46 s) (map seg_str ids).
  Proof.
    intros H. apply Forall_forall. intros s Hs. apply in_map_iff in Hs as (x & <- & Hx).
    unfold no_dots in H. rewrite Forall_forall in H. specialize (H x Hx). destruct x; cbn; [apply str_int_no_dot|exact H].
  Qed.

  Lemma split_rpcid_str ids : ids <> [] -> no_dots ids -> split_dot (rpcid_str ids) = map seg_str ids.
  Proof. intros Hne Hd. unfold rpcid_str. apply split_join; [destruct ids; [congruence|discriminate]|apply no_dot_segs; exact Hd]. Qed.

  Lemma rpcid_text_roundtrip ids : normal U ids -> no_dots ids ->
    mk_rpcid U (map SStr (split_dot (rpcid_str ids))) = Ok ids.
  Proof.
    intros Hn Hd. pose proof (normal_nonempty _ _ Hn) as Hne. rewrite split_rpcid_str by assumption.
    unfold mk_rpcid. destruct (map SStr (map seg_str ids)) as [|x l] eqn:E; [destruct ids; [congruence|discriminate]|].
    rewrite <- E. clear E x l. rewrite !map_map.
    assert (Hm : map (fun x => innertrans U (SStr (seg_str x))) ids = ids).
    { destruct Hn as [Hf _]. induction Hf as [|x l H _ IH]; [reflexivity|]. cbn [map]. rewrite innertrans_seg_str by exact H. f_equal. 
      destruct l as [|y l]; [reflexivity|]. apply IH; [inversion Hd; assumption|discriminate]. }
    rewrite Hm. destruct Hn as [_ [z Hz]]. rewrite (last_default _ (SInt 1) (SStr [])), Hz by exact Hne. reflexivity.
  Qed.

  Lemma mk_rpcid_text_iff s ids : mk_rpcid U (map SStr (split_dot s)) = Ok ids <->
    ids = map (fun x => innertrans U (SStr x)) (split_dot s) /\ exists z, parse_int U (last (split_dot s) []) = Some z.
  Proof.
    pose proof (split_dot_nonempty s) as Hne. unfold mk_rpcid.
    destruct (map SStr (split_dot s)) as [|x l] eqn:E; [destruct (split_dot s); [congruence|discriminate]|]. rewrite <- E. clear E x l.
    rewrite map_map. destruct (split_dot s) as [|x l _] using rev_ind; [congruence|].
    rewrite map_app. cbn [map]. rewrite !last_snoc. cbn [innertrans]. destruct (parse_int U x) as [z|].
    - split; [intros H; injection H as <-; split; [reflexivity|eauto]|]. intros [-> _]. reflexivity.
    - split; [discriminate|]. intros [_ [z Hz]]. discriminate.
  Qed.

  Lemma mk_rpcid_text_err s e : mk_rpcid U (map SStr (split_dot s)) = Raise e -> e = TypeError.
  Proof.
    unfold mk_rpcid. destruct (map SStr (split_dot s)); [discriminate|]. destruct (last _ _); [discriminate|].
    intros H. injection H as <-. reflexivity.
  Qed.

  Lemma canonical_text_reproduced s ids :
    Forall (fun x => parse_int U x = None \/ exists z, canonical_int x z) (split_dot s) ->
    mk_rpcid U (map SStr (split_dot s)) = Ok ids -> rpcid_str ids = s.
  Proof.
    intros Hc H. apply mk_rpcid_text_iff in H as [-> _]. unfold rpcid_str. rewrite map_map.
    assert (Hm : map (fun x => seg_str (innertrans U (SStr x))) (split_dot s) = split_dot s).
    { induction Hc as [|x l Hx _ IH]; [reflexivity|]. cbn [map]. rewrite IH. f_equal. cbn [innertrans].
      destruct Hx as [->|[z Hz]]; [reflexivity|]. apply canonical_iff in Hz. subst x. rewrite (parse_str_int U HU). reflexivity. }
    rewrite Hm. apply join_split.
  Qed.

  Lemma reproduced_canonical s ids : mk_rpcid U (map SStr (split_dot s)) = Ok ids -> rpcid_str ids = s ->
    Forall (fun x => parse_int U x = None \/ exists z, canonical_int x z) (split_dot s).
  Proof.
    intros H Hs. pose proof (mk_rpcid_normal _ _ _ H) as Hn.
    assert (Hd : no_dots ids). { apply (mk_rpcid_no_dots _ _ _ H). unfold no_dots. apply Forall_forall. intros x Hx. apply in_map_iff in Hx as (w & <- & Hw).
      pose proof (split_parts_no_dot s) as Hp. rewrite Forall_forall in Hp. auto. }
    rewrite <- Hs, split_rpcid_str by (try exact Hd; exact (normal_nonempty _ _ Hn)).
    apply Forall_forall. intros x Hx. apply in_map_iff in Hx as (w & <- & Hw). destruct Hn as [Hf _]. rewrite Forall_forall in Hf. specialize (Hf w Hw).
    destruct w as [z|t]; cbn; [right; exists z; apply canonical_str_int|left; exact Hf].
  Qed.
End Text.

(** ** the object heap *)
Lemma length_bump i h : length (bump i h) = length h.
Proof. revert i. induction h as [|o h IH]; intros [|i]; cbn; auto. Qed.

Lemma nth_bump i j h : nth_error (bump i h) j =
  match nth_error h j with
  | Some o => Some (if Nat.eqb i j then {| r_ids := r_ids o; r_count := r_count o + 1; r_parent := r_parent o |} else o)
  | None => None
  end.
Proof.
  revert i j. induction h as [|o h IH]; intros i j; [destruct i, j; reflexivity|].
  destruct i as [|i], j as [|j]; cbn [bump nth_error Nat.eqb]; try reflexivity.
  - destruct (nth_error h j); reflexivity.
  - apply IH.
Qed.

(** objects keep their ids and parents, only counts change *)
Definition same_ids (h h' : list rpcobj) : Prop :=
  forall i o, nth_error h i = Some o -> exists o', nth_error h' i = Some o' /\ r_ids o' = r_ids o /\ r_parent o' = r_parent o.

Lemma same_ids_refl h : same_ids h h. Proof. intros i o H. eauto. Qed.
Lemma same_ids_trans a b c : same_ids a b -> same_ids b c -> same_ids a c.
Proof. intros H1 H2 i o H. destruct (H1 i o H) as (o1 & A & B & C). destruct (H2 i o1 A) as (o2 & A' & B' & C'). exists o2. split; [exact A'|]. split; congruence. Qed.
Lemma same_ids_bump i h : same_ids h (bump i h).
Proof. intros j o H. rewrite nth_bump, H. destruct (Nat.eqb i j); eexists; (split; [reflexivity|auto]). Qed.
Lemma same_ids_app h l : same_ids h (h ++ l).
Proof. intros i o H. exists o. split; [|auto]. rewrite nth_error_app1; [exact H|]. apply nth_error_Some. congruence. Qed.

Definition heap_normal U h : Prop := forall i o, nth_error h i = Some o -> normal U (r_ids o).

Lemma removelast_snoc {A} (l : list A) x : removelast (l ++ [x]) = l.
Proof. rewrite removelast_app by discriminate. cbn. apply app_nil_r. Qed.

(** effect of a derivation on a heap of normal ids *)
Lemma new_child_spec U h i o : nth_error h i = Some o -> normal U (r_ids o) ->
  new_child_of U h i = (bump i h ++ [{| r_ids := r_ids o ++ [SInt (r_count o + 1)]; r_count := 0; r_parent := Some i |}], Ok (length h)).
Proof.
  intros Hi Hn. unfold new_child_of. rewrite Hi. rewrite mk_rpcid_id; [reflexivity|].
  apply normal_snoc. eexists _, _. split; [reflexivity|]. apply Hn.
Qed.

Lemma new_follows_spec U h i o l z : nth_error h i = Some o -> normal U (r_ids o) -> r_ids o = l ++ [SInt z] ->
  new_follows_from U h i =
  ((match r_parent o with Some p => bump p h | None => h end) ++
   [{| r_ids := l ++ [SInt (z + 1)]; r_count := 0; r_parent := r_parent o |}], Ok (length h)).
Proof.
  intros Hi Hn Hz. unfold new_follows_from. rewrite Hi, Hz, last_snoc, removelast_snoc. rewrite mk_rpcid_id; [reflexivity|].
  apply normal_snoc. eexists _, _. split; [reflexivity|]. rewrite Hz in Hn. destruct Hn as [Hf _]. apply Forall_app in Hf. apply Hf.
Qed.

(** any derivation from an existing object succeeds, appends one object, keeps the others' ids *)
Lemma new_ref_spec U h i t : heap_normal U h -> (i < length h)%nat ->
  exists h' o, new_by_reference_type U h i t = (h' ++ [o], Ok (length h)) /\ length h' = length h /\ same_ids h h' /\
    normal U (r_ids o) /\ heap_normal U (h' ++ [o]).
Proof.
  intros Hh Hi. destruct (nth_error h i) as [oi|] eqn:Ei; [|apply nth_error_None in Ei; lia].
  pose proof (Hh i oi Ei) as Hn.
  assert (K : forall h' o, length h' = length h -> same_ids h h' -> normal U (r_ids o) -> heap_normal U (h' ++ [o])).
  { intros h' o Hl Hs Ho j oj Hj. destruct (Nat.lt_ge_cases j (length h')) as [Hlt|Hge].
    - rewrite nth_error_app1 in Hj by exact Hlt. rewrite Hl in Hlt. apply nth_error_Some in Hlt. destruct (nth_error h j) as [q|] eqn:Eq; [|congruence].
      destruct (Hs j q Eq) as (q' & A & B & _). rewrite A in Hj. injection Hj as <-. rewrite B. apply (Hh j q Eq).
    - rewrite nth_error_app2 in Hj by exact Hge. destruct (j - length h')%nat as [|m]; cbn in Hj; [injection Hj as <-; exact Ho|destruct m; discriminate]. }
  destruct t; cbn [new_by_reference_type].
  - rewrite (new_child_spec U h i oi Ei Hn). eexists _, _. split; [reflexivity|].
    assert (No : normal U (r_ids oi ++ [SInt (r_count oi + 1)])) by (apply normal_snoc; eexists _, _; split; [reflexivity|apply Hn]).
    split; [apply length_bump|]. split; [apply same_ids_bump|]. split; [exact No|]. apply K; [apply length_bump|apply same_ids_bump|exact No].
  - pose proof Hn as Hn'. apply normal_snoc in Hn' as (l & z & Hz & Hf). rewrite (new_follows_spec U h i oi l z Ei Hn Hz).
    eexists _, _. split; [reflexivity|].
    assert (No : normal U (l ++ [SInt (z + 1)])) by (apply normal_snoc; eauto).
    assert (L : length (match r_parent oi with Some p => bump p h | None => h end) = length h) by (destruct (r_parent oi); [apply length_bump|reflexivity]).
    assert (S : same_ids h (match r_parent oi with Some p => bump p h | None => h end)) by (destruct (r_parent oi); [apply same_ids_bump|apply same_ids_refl]).
    split; [exact L|]. split; [exact S|]. split; [exact No|]. apply K; assumption.
Qed.

(** ** distinctness under disciplined follow-ups *)
Definition opkind (k : bool) : reftype := if k then ChildOf else FollowsFrom.
Fixpoint derive (U : tables) (h : list rpcobj) (ops : list (bool * nat)) : list rpcobj :=
  match ops with
  | [] => h
  | (k, c) :: r => derive U (fst (new_by_reference_type U h c (opkind k))) r
  end.

Lemma derive_app U ops1 : forall h ops2, derive U h (ops1 ++ ops2) = derive U (derive U h ops1) ops2.
Proof. induction ops1 as [|[k c] ops1 IH]; intros h ops2; [reflexivity|]. cbn [app derive]. apply IH. Qed.

Lemma parents_from_app ops1 : forall acc ops2, parents_from acc (ops1 ++ ops2) = parents_from (parents_from acc ops1) ops2.
Proof. induction ops1 as [|[k c] ops1 IH]; intros acc ops2; [reflexivity|]. cbn [app parents_from]. apply IH. Qed.
Lemma length_parents_from ops : forall acc, length (parents_from acc ops) = (length acc + length ops)%nat.
Proof. induction ops as [|[k c] ops IH]; intros acc; cbn [parents_from length]; [lia|]. rewrite IH, app_length. cbn [length]. lia. Qed.
Lemma length_parents ops : length (parents ops) = S (length ops).
Proof. unfold parents. rewrite length_parents_from. reflexivity. Qed.
Lemma parents_snoc ops k c : parents (ops ++ [(k, c)]) = parents ops ++ [if k then Some c else nth c (parents ops) None].
Proof. unfold parents. rewrite parents_from_app. reflexivity. Qed.

(** i's id is its parent's id (or the base) extended by k *)
Record dinv (U : tables) (base : list seg) (ps : list (option nat)) (h : list rpcobj) : Prop := {
  d_len : length h = length ps;
  d_par : forall i o, nth_error h i = Some o -> r_parent o = nth i ps None;
  d_norm : heap_normal U h;
  d_child : forall i o p, nth_error h i = Some o -> r_parent o = Some p ->
            (p < i)%nat /\ exists op k, nth_error h p = Some op /\ r_ids o = r_ids op ++ [SInt k] /\ k <= r_count op;
  d_root : forall i o, nth_error h i = Some o -> r_parent o = None -> exists k, r_ids o = base ++ [SInt k];
  d_incr : forall i j oi oj, (i < j)%nat -> nth_error h i = Some oi -> nth_error h j = Some oj -> r_parent oi = r_parent oj ->
           exists l ki kj, r_ids oi = l ++ [SInt ki] /\ r_ids oj = l ++ [SInt kj] /\ ki < kj;
  d_last : forall i o p op l k, nth_error h i = Some o -> r_parent o = Some p -> nth_error h p = Some op ->
           (forall j oj, (i < j)%nat -> nth_error h j = Some oj -> r_parent oj <> Some p) ->
           r_ids o = l ++ [SInt k] -> k = r_count op }.

Lemma app_inj_int l l' z z' : l ++ [SInt z] = l' ++ [SInt z'] -> l = l' /\ z = z'.
Proof. intros H. apply app_inj_tail in H as [-> H]. injection H as ->. auto. Qed.

Lemma dinv_distinct U base ps h : dinv U base ps h -> forall i j oi oj,
  nth_error h i = Some oi -> nth_error h j = Some oj -> r_ids oi = r_ids oj -> i = j.
Proof.
  intros D.
  assert (Len : forall i o, nth_error h i = Some o -> (length base + 1 <= length (r_ids o))%nat /\ (r_parent o <> None -> length base + 2 <= length (r_ids o))%nat).
  { induction i as [i IH] using lt_wf_ind. intros o Hi. destruct (r_parent o) as [p|] eqn:Ep.
    - destruct (d_child _ _ _ _ D i o p Hi Ep) as (Hlt & op & k & Hp & E & _). destruct (IH p Hlt op Hp) as [L _].
      rewrite E, app_length. cbn [length]. split; [lia|]. intros _. lia.
    - destruct (d_root _ _ _ _ D i o Hi Ep) as (k & E). rewrite E, app_length. cbn [length]. split; [lia|congruence]. }
  assert (Same : forall i j oi oj, nth_error h i = Some oi -> nth_error h j = Some oj -> r_parent oi = r_parent oj -> r_ids oi = r_ids oj -> i = j).
  { intros i j oi oj Hi Hj Hp He. destruct (Nat.lt_trichotomy i j) as [H|[H|H]]; [|exact H|]; exfalso.
    - destruct (d_incr _ _ _ _ D i j oi oj H Hi Hj Hp) as (l & ki & kj & E1 & E2 & Hk). rewrite E1, E2 in He. apply app_inj_int in He. lia.
    - destruct (d_incr _ _ _ _ D j i oj oi H Hj Hi ltac:(congruence)) as (l & ki & kj & E1 & E2 & Hk). rewrite E1, E2 in He. apply app_inj_int in He. lia. }
  induction i as [i IH] using lt_wf_ind. intros j oi oj Hi Hj He.
  destruct (r_parent oi) as [p|] eqn:Epi; destruct (r_parent oj) as [q|] eqn:Epj.
  - destruct (d_child _ _ _ _ D i oi p Hi Epi) as (Hlt & op & k & Hp & E & _).
    destruct (d_child _ _ _ _ D j oj q Hj Epj) as (Hlt' & oq & k' & Hq & E' & _).
    assert (p = q). { rewrite E, E' in He. apply app_inj_int in He as [He _]. exact (IH p Hlt q op oq Hp Hq He). }
    subst q. apply (Same i j oi oj Hi Hj); congruence.
  - exfalso. destruct (Len i oi Hi) as [_ L]. destruct (d_root _ _ _ _ D j oj Hj Epj) as (k & E). rewrite He, E, app_length in L. cbn [length] in L. specialize (L ltac:(congruence)). lia.
  - exfalso. destruct (Len j oj Hj) as [_ L]. destruct (d_root _ _ _ _ D i oi Hi Epi) as (k & E). rewrite <- He, E, app_length in L. cbn [length] in L. specialize (L ltac:(congruence)). lia.
  - apply (Same i j oi oj Hi Hj); congruence.
Qed.

Lemma nth_error_snoc {A} (l : list A) x i y : nth_error (l ++ [x]) i = Some y -> nth_error l i = Some y \/ i = length l /\ y = x.
Proof.
  destruct (Nat.lt_ge_cases i (length l)) as [H|H].
  - rewrite nth_error_app1 by exact H. auto.
  - rewrite nth_error_app2 by exact H. destruct (i - length l)%nat as [|m] eqn:E; cbn; [|destruct m; discriminate].
    intros Hx. injection Hx as <-. right. split; [lia|reflexivity].
Qed.

(** [p] is the parent whose counter is bumped *)
Lemma dinv_extend U base ps h opar o k :
  dinv U base ps h -> normal U (r_ids o) -> r_parent o = opar ->
  (match opar with
   | Some p => exists op, nth_error h p = Some op /\ r_ids o = r_ids op ++ [SInt k] /\ k = r_count op + 1
   | None => r_ids o = base ++ [SInt k] /\ forall i oi l ki, nth_error h i = Some oi -> r_parent oi = None -> r_ids oi = l ++ [SInt ki] -> ki < k
   end) ->
  dinv U base (ps ++ [opar]) ((match opar with Some p => bump p h | None => h end) ++ [o]).
Proof.
  intros D No Hpar Ho. remember (match opar with Some p => bump p h | None => h end) as h' eqn:Eh'.
  assert (L : length h' = length h) by (subst h'; destruct opar; [apply length_bump|reflexivity]).
  assert (Old : forall i oi, nth_error h' i = Some oi -> exists oi0, nth_error h i = Some oi0 /\ r_ids oi = r_ids oi0 /\ r_parent oi = r_parent oi0 /\
     r_count oi = r_count oi0 + (if match opar with Some p => Nat.eqb p i | None => false end then 1 else 0)).
  { intros i oi Hi. subst h'. destruct opar as [p|].
    - rewrite nth_bump in Hi. destruct (nth_error h i) as [q|]; [|discriminate]. exists q. injection Hi as <-.
      destruct (Nat.eqb p i); cbn; repeat split; lia.
    - exists oi. repeat split; [exact Hi|lia]. }
  assert (New : forall i oi, nth_error h i = Some oi -> exists oi1, nth_error h' i = Some oi1 /\ r_ids oi1 = r_ids oi /\ r_count oi <= r_count oi1).
  { intros i oi Hi. subst h'. destruct opar as [p|].
    - rewrite nth_bump, Hi. eexists. split; [reflexivity|]. destruct (Nat.eqb p i); cbn; split; try reflexivity; lia.
    - exists oi. repeat split; [exact Hi|lia]. }
  assert (Lt : forall i oi, nth_error h' i = Some oi -> (i < length h)%nat) by (intros i oi Hi; rewrite <- L; apply nth_error_Some; congruence).
  split.
  - rewrite !app_length, L, (d_len _ _ _ _ D). reflexivity.
  - intros i oi Hi. apply nth_error_snoc in Hi as [Hi|[-> ->]].
    + pose proof (Lt _ _ Hi). destruct (Old i oi Hi) as (q & A & _ & C & _). rewrite C, (d_par _ _ _ _ D i q A). rewrite app_nth1; [reflexivity|]. rewrite <- (d_len _ _ _ _ D). assumption.
    + rewrite app_nth2 by (rewrite L, (d_len _ _ _ _ D); lia). rewrite L, (d_len _ _ _ _ D), Nat.sub_diag. exact Hpar.
  - intros i oi Hi. apply nth_error_snoc in Hi as [Hi|[-> ->]]; [|exact No].
    destruct (Old i oi Hi) as (q & A & B & _). rewrite B. apply (d_norm _ _ _ _ D i q A).
  - intros i oi p Hi Hp. apply nth_error_snoc in Hi as [Hi|[-> ->]].
    + destruct (Old i oi Hi) as (q & A & B & C & _). rewrite C in Hp. destruct (d_child _ _ _ _ D i q p A Hp) as (Hlt & op & kk & Hop & E & Hk).
      split; [exact Hlt|]. destruct (New p op Hop) as (op1 & F1 & F2 & F3). exists op1, kk. split; [rewrite nth_error_app1; [exact F1|apply nth_error_Some; congruence]|].
      split; [rewrite B, F2; exact E|lia].
    + rewrite Hpar in Hp. rewrite Hp in Ho, Eh'. destruct Ho as (op & Hop & E & Hk).
      split; [rewrite L; apply nth_error_Some; congruence|].
      eexists _, k. split; [rewrite nth_error_app1 by (rewrite L; apply nth_error_Some; congruence); rewrite Eh', nth_bump, Hop; reflexivity|].
      rewrite Nat.eqb_refl. cbn [r_ids r_count]. split; [exact E|lia].
  - intros i oi Hi Hp. apply nth_error_snoc in Hi as [Hi|[-> ->]].
    + destruct (Old i oi Hi) as (q & A & B & C & _). rewrite C in Hp. rewrite B. exact (d_root _ _ _ _ D i q A Hp).
    + rewrite Hpar in Hp. rewrite Hp in Ho. exists k. apply Ho.
  - intros i j oi oj Hij Hi Hj Hp. apply nth_error_snoc in Hj as [Hj|[-> ->]].
    + apply nth_error_snoc in Hi as [Hi|[-> _]]; [|pose proof (Lt _ _ Hj); lia].
      destruct (Old i oi Hi) as (q & A & B & C & _). destruct (Old j oj Hj) as (r & A' & B' & C' & _). rewrite B, B'.
      apply (d_incr _ _ _ _ D i j q r Hij A A'). congruence.
    + apply nth_error_snoc in Hi as [Hi|[-> _]]; [|lia].
      destruct (Old i oi Hi) as (q & A & B & C & _). rewrite Hpar in Hp. rewrite C in Hp. rewrite B. destruct opar as [p|].
      * destruct Ho as (op & Hop & E & Hk). destruct (d_child _ _ _ _ D i q p A Hp) as (_ & op' & ki & Hop' & E' & Hki).
        assert (op' = op) by congruence. subst op'. exists (r_ids op), ki, k. repeat split; [exact E'|exact E|lia].
      * destruct Ho as [E Hmax]. destruct (d_root _ _ _ _ D i q A Hp) as (ki & E'). exists base, ki, k. repeat split; [exact E'|exact E|]. apply (Hmax i q base ki A Hp E').
  - intros i oi p op l kk Hi Hp Hop Hno E.
    apply nth_error_snoc in Hi as [Hi|[-> ->]].
    + destruct (Old i oi Hi) as (q & A & B & C & _). pose proof (Lt _ _ Hi) as Hli.
      assert (Hne : opar <> Some p). { intros Heq. apply (Hno (length h') o); [rewrite L; exact Hli|rewrite nth_error_app2, Nat.sub_diag by lia; reflexivity|congruence]. }
      assert (Hpl : nth_error h' p = Some op).
      { apply nth_error_snoc in Hop as [Hop|[-> _]]; [exact Hop|]. exfalso. rewrite C in Hp. destruct (d_child _ _ _ _ D i q _ A Hp) as (Hlt & _). lia. }
      destruct (Old p op Hpl) as (op0 & A0 & B0 & C0 & D0).
      assert (Hcnt : r_count op = r_count op0). { rewrite D0. destruct opar as [p'|]; [|lia]. destruct (Nat.eqb_spec p' p) as [->|]; [congruence|lia]. }
      rewrite Hcnt. apply (d_last _ _ _ _ D i q p op0 l kk A ltac:(congruence) A0); [|congruence].
      intros j oj Hj Hoj Hpj. destruct (nth_error h' j) as [oj1|] eqn:Ej.
      * destruct (Old j oj1 Ej) as (oj0 & A1 & _ & C1 & _). apply (Hno j oj1 Hj); [rewrite nth_error_app1 by (rewrite L; exact (Lt _ _ Ej)); exact Ej|]. congruence.
      * apply nth_error_None in Ej. assert (nth_error h j <> None) by congruence. apply nth_error_Some in H. lia.
    + rewrite Hpar in Hp. rewrite Hp in Ho, Eh'. destruct Ho as (op' & Hop' & E' & Hk).
      rewrite E in E'. apply app_inj_int in E' as [_ ->].
      rewrite nth_error_app1 in Hop by (rewrite L; apply nth_error_Some; congruence). rewrite Eh', nth_bump, Hop', Nat.eqb_refl in Hop.
      injection Hop as <-. cbn [r_count]. exact Hk.
Qed.

Lemma dinv_derive U base k0 ops :
  let root := {| r_ids := base ++ [SInt k0]; r_count := 0; r_parent := None |} in
  normal U (base ++ [SInt k0]) -> refers_to_existing ops -> follows_latest ops -> dinv U base (parents ops) (derive U [root] ops).
Proof.
  intros root Hn. induction ops as [|[k c] ops IH] using rev_ind; intros He Hf.
  - cbn [derive parents parents_from]. assert (One : forall i o, nth_error [root] i = Some o -> i = 0%nat /\ o = root).
    { intros [|i] o H; cbn in H; [injection H as <-; auto|destruct i; discriminate]. }
    split.
    + reflexivity.
    + intros i o H. apply One in H as [-> ->]. reflexivity.
    + intros i o H. apply One in H as [-> ->]. exact Hn.
    + intros i o p H Hp. apply One in H as [-> ->]. discriminate.
    + intros i o H _. apply One in H as [-> ->]. exists k0. reflexivity.
    + intros i j oi oj Hij Hi Hj _. apply One in Hi as [-> _]. apply One in Hj as [-> _]. lia.
    + intros i o p op l k H Hp. apply One in H as [-> ->]. discriminate.
  - assert (He' : refers_to_existing ops). { intros pre k' c' post E. apply (He pre k' c' (post ++ [(k, c)])). rewrite E, <- app_assoc. reflexivity. }
    assert (Hf' : follows_latest ops). { intros pre c' post E. apply (Hf pre c' (post ++ [(k, c)])). rewrite E, <- app_assoc. reflexivity. }
    specialize (IH He' Hf'). pose proof (He ops k c [] eq_refl) as Hc.
    rewrite derive_app, parents_snoc. remember (derive U [root] ops) as h eqn:Eh. cbn [derive].
    assert (Hlt : (c < length h)%nat). { rewrite (d_len _ _ _ _ IH), length_parents. lia. }
    destruct (nth_error h c) as [oc|] eqn:Ec; [|apply nth_error_None in Ec; lia].
    pose proof (d_norm _ _ _ _ IH c oc Ec) as Noc.
    destruct k; cbn [opkind new_by_reference_type].
    + rewrite (new_child_spec U h c oc Ec Noc). cbn [fst].
      refine (dinv_extend U base _ h (Some c) {| r_ids := _; r_count := 0; r_parent := Some c |} (r_count oc + 1) IH _ eq_refl _).
      * apply normal_snoc. eexists _, _. split; [reflexivity|]. apply Noc.
      * exists oc. auto.
    + pose proof Noc as Noc'. apply normal_snoc in Noc' as (l & z & Hz & Hfl). rewrite (new_follows_spec U h c oc l z Ec Noc Hz). cbn [fst].
      rewrite <- (d_par _ _ _ _ IH c oc Ec).
      assert (Hlast : forall j oj, (c < j)%nat -> nth_error h j = Some oj -> r_parent oj <> r_parent oc).
      { intros j oj Hj Hoj. rewrite (d_par _ _ _ _ IH j oj Hoj), (d_par _ _ _ _ IH c oc Ec). apply (Hf ops c [] eq_refl).
        assert (j < length h)%nat by (apply nth_error_Some; congruence). rewrite (d_len _ _ _ _ IH), length_parents in H. lia. }
      refine (dinv_extend U base _ h (r_parent oc) {| r_ids := _; r_count := 0; r_parent := r_parent oc |} (z + 1) IH _ eq_refl _).
      * apply normal_snoc. exists l, (z + 1). split; [reflexivity|exact Hfl].
      * cbn [r_ids]. destruct (r_parent oc) as [p|] eqn:Ep.
        -- destruct (d_child _ _ _ _ IH c oc p Ec Ep) as (_ & op & kk & Hop & E & _). exists op. split; [exact Hop|].
           rewrite Hz in E. apply app_inj_int in E as [-> <-]. split; [reflexivity|].
           rewrite (d_last _ _ _ _ IH c oc p op _ z Ec Ep Hop Hlast Hz). reflexivity.
        -- destruct (d_root _ _ _ _ IH c oc Ec Ep) as (kk & E). rewrite Hz in E. apply app_inj_int in E as [-> <-]. split; [reflexivity|].
           intros i oi li ki Hi Hpi Ei. destruct (Nat.lt_trichotomy i c) as [H|[H|H]].
           ++ destruct (d_incr _ _ _ _ IH i c oi oc H Hi Ec ltac:(congruence)) as (l2 & a & b & E1 & E2 & Hab). rewrite Ei in E1. apply app_inj_int in E1 as [_ ->].
              rewrite Hz in E2. apply app_inj_int in E2 as [_ ->]. lia.
           ++ subst i. assert (oi = oc) by congruence. subst oi. rewrite Hz in Ei. apply app_inj_int in Ei as [_ ->]. lia.
           ++ exfalso. apply (Hlast i oi H Hi). congruence.
Qed.

(** ** trace ids *)
Lemma str_int_nonneg z : 0 <= z -> numeral 10 (str_int z) z.
Proof. intros H. unfold str_int. replace (z <? 0) with false by lia. apply nat_text_numeral; lia. Qed.

Lemma app_len_inj {A} (a a' b b' : list A) : length a = length a' -> a ++ b = a' ++ b' -> a = a' /\ b = b'.
Proof.
  revert a'. induction a as [|x a IH]; intros [|x' a'] Hl H; try discriminate; [auto|]. cbn in *. injection H as -> H.
  destruct (IH a' ltac:(lia) H) as [-> ->]. auto.
Qed.

Lemma trace_text_inj ip ip' ts ts' sq sq' pid pid' :
  0 <= ip < 2 ^ 32 -> 0 <= ip' < 2 ^ 32 -> 10 ^ 12 <= ts < 10 ^ 13 -> 10 ^ 12 <= ts' < 10 ^ 13 ->
  1000 <= sq <= 9000 -> 1000 <= sq' <= 9000 -> 0 <= pid -> 0 <= pid' ->
  trace_text ip ts sq pid = trace_text ip' ts' sq' pid' -> ip = ip' /\ ts = ts' /\ sq = sq' /\ pid = pid'.
Proof.
  intros H1 H1' H2 H2' H3 H3' H4 H4' H. unfold trace_text in H.
  pose proof (hex8_fixed ip H1) as F1. pose proof (hex8_fixed ip' H1') as F1'.
  assert (L : forall z k, 1 <= k -> 10 ^ (k - 1) <= z < 10 ^ k -> length (str_int z) = Z.to_nat k).
  { intros z k Hk Hz. assert (0 <= z) by (pose proof (Z.pow_nonneg 10 (k - 1)); lia).
    pose proof (numeral_len 10 _ z k ltac:(lia) Hk (str_int_nonneg z H0) Hz) as Hl. unfold len in Hl. lia. }
  apply app_len_inj in H as [E1 H]; [|rewrite (fixed_len _ _ _ _ F1), (fixed_len _ _ _ _ F1'); reflexivity].
  apply app_len_inj in H as [E2 H]; [|rewrite (L ts 13), (L ts' 13); [reflexivity|lia|exact H2'|lia|exact H2]].
  apply app_len_inj in H as [E3 E4].
  2:{ rewrite (L sq 4), (L sq' 4); [reflexivity|lia| |lia| ]; change (10 ^ (4 - 1)) with 1000; change (10 ^ 4) with 10000; lia. }
  rewrite E1 in F1. split; [exact (fixed_fun _ _ _ _ F1 _ F1')|]. repeat split; apply str_int_inj; assumption.
Qed.

Lemma trace_sequence_draw n : cycle_draw trace_sequence n = Some (1000 + Z.of_nat n mod 8001).
Proof.
  unfold trace_sequence. remember (chain_list [(1000, 9001)]) as l eqn:El.
  assert (E : l = range_list 1000 9001) by (subst l; unfold chain_list; cbn [flat_map fst snd]; apply app_nil_r).
  assert (Hl : Z.of_nat (length l) = 8001) by (rewrite E, length_range_list; lia).
  destruct (cycle_draw_nth [(1000, 9001)] n) as [H _].
  { rewrite <- El. intros ->. cbn in Hl. lia. }
  rewrite H, <- El, E. rewrite E in Hl.
  assert (Hm : Z.of_nat (n mod length (range_list 1000 9001)) = Z.of_nat n mod 8001) by (rewrite Nat2Z.inj_mod, Hl; reflexivity).
  rewrite nth_range_list by (rewrite Hm; pose proof (Z.mod_pos_bound (Z.of_nat n) 8001); lia). rewrite Hm. reflexivity.
Qed.

Lemma process_trace_repeat ip pid ts i j t : 0 <= ip < 2 ^ 32 -> 0 <= pid -> (forall n, 10 ^ 12 <= ts n < 10 ^ 13) ->
  process_trace ip pid ts i = Some t -> process_trace ip pid ts j = Some t ->
  ts i = ts j /\ Z.of_nat i mod 8001 = Z.of_nat j mod 8001.
Proof.
  intros Hip Hpid Hts Hi Hj. unfold process_trace in *. rewrite trace_sequence_draw in Hi, Hj. cbn [option_map] in *.
  assert (E : trace_text ip (ts i) (1000 + Z.of_nat i mod 8001) pid = trace_text ip (ts j) (1000 + Z.of_nat j mod 8001) pid) by congruence.
  pose proof (Z.mod_pos_bound (Z.of_nat i) 8001). pose proof (Z.mod_pos_bound (Z.of_nat j) 8001).
  apply trace_text_inj in E; try assumption; try apply Hts; try lia.
Qed.
