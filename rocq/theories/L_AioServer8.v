(** Lemmas about the asyncio server: the stream as a whole. *)
From Coq Require Import ZifyBool Strings.String.
From Verif Require Import PyBase L_PyBase PyDict L_PyDict PyInt Struct M_SofaHeader L_SofaHeader M_Package L_Package L_Codec M_RpcId M_Trace S_Wire M_AioServer S_Server L_AioServer L_AioServer2 L_AioServer3 L_AioServer4 L_AioServer5 L_AioServer6 L_AioServer7.
Open Scope Z_scope.

(** ** A handler that waits has dealt with all complete units *)
Lemma ready_false n s : v_exn s = false -> ready n s = false -> len (v_buf s) < n.
Proof. unfold ready. intros -> H. cbn in H. destruct (Z.leb_spec n (len (v_buf s))); [discriminate|lia]. Qed.
Lemma rfail_rd id st s : v_rd (rfail id st s) = RDied \/ exists bs, v_rd (rfail id st s) = RFail1 bs.
Proof. unfold rfail. destruct (fail_bytes id st); cbn; eauto. Qed.
Lemma unit_None_parts fx c h rest : len fx = 22 -> uval (field 14 2 fx) = len c -> uval (field 16 2 fx) = len h -> (exists sofa, from_bytes h = Ok sofa) -> len rest < uval (field 18 4 fx) -> unit_of (fx ++ c ++ h ++ rest) = None.
Proof. intros L C H (sofa & E) R. rewrite unit_split by assumption. unfold classify. rewrite E. destruct (Z.ltb_spec (len rest) (uval (field 18 4 fx))); [reflexivity|lia]. Qed.
Lemma unit_None_short fx y : len fx = 22 -> len y < uval (field 14 2 fx) + uval (field 16 2 fx) -> unit_of (fx ++ y) = None.
Proof.
  intros L H. unfold unit_of. rewrite len_app. pose proof (len_nonneg y). destruct (Z.ltb_spec (len fx + len y) 22); [reflexivity|]. cbv zeta. rewrite (py_take_app' 22 fx) by lia.
  destruct (Z.ltb_spec (len fx + len y) (22 + uval (field 14 2 fx) + uval (field 16 2 fx))); [reflexivity|lia].
Qed.
Lemma waiting_rest s rest : waiting s -> ahead (v_rd s) (v_buf s) rest -> unit_of rest = None.
Proof.
  intros (R & E & X & S) A. assert (Sr : v_rd (sread s) = v_rd s) by (rewrite S; reflexivity). clear S. unfold sread in Sr.
  destruct (v_rd s) as [|h|h c|h c sofa|bs| |st| | |] eqn:Er; try contradiction; cbn [ahead] in A.
  - change (bolt_header_size BoltRequest) with 22 in Sr. destruct (ready 22 s) eqn:Rd.
    + exfalso. destruct (bolt_header_from_stream BoltRequest (py_take 22 (v_buf s))) as [h|e]; [discriminate|]. destruct (last_id s) as [id|]; [|discriminate].
      destruct (rfail_rd id ST_CODEC_EXCEPTION (take 22 s)) as [K|(bs & K)]; congruence.
    + subst rest. apply ready_false in Rd; [|exact X]. unfold unit_of. destruct (Z.ltb_spec (len (v_buf s)) 22); [reflexivity|lia].
  - destruct A as (fx & L & -> & ->). destruct (int_req fx) as (_ & I2 & _). rewrite I2 in Sr. destruct (ready (uval (field 14 2 fx)) s) eqn:Rd; [discriminate|]. apply ready_false in Rd; [|exact X].
    apply unit_None_short; [exact L|]. pose proof (uval_nonneg (field 16 2 fx)). lia.
  - destruct A as (fx & L & -> & C & ->). destruct (int_req fx) as (_ & _ & I3 & _). rewrite I3 in Sr. destruct (ready (uval (field 16 2 fx)) s) eqn:Rd.
    + exfalso. destruct (from_bytes (py_take (uval (field 16 2 fx)) (v_buf s))) as [sofa|e]; [discriminate|].
      destruct e; try discriminate; match type of Sr with v_rd (rfail ?a ?b ?c) = _ => destruct (rfail_rd a b c) as [K|(bs & K)]; congruence end.
    + apply ready_false in Rd; [|exact X]. apply unit_None_short; [exact L|]. rewrite len_app. lia.
  - destruct A as (fx & hb & L & -> & C & H & F & ->). destruct (int_req fx) as (_ & _ & _ & I4 & _). rewrite I4 in Sr. destruct (ready (uval (field 18 4 fx)) s) eqn:Rd.
    + exfalso. unfold found in Sr. destruct (int_of f_cmdcode (req_dict fx) =? CMDCODE_HEARTBEAT); [destruct (beat_bytes (int_of f_request_id (req_dict fx))); discriminate|].
      destruct (int_of f_cmdcode (req_dict fx) =? CMDCODE_RESPONSE); [match type of Sr with v_rd (rfail ?a ?b ?c) = _ => destruct (rfail_rd a b c) as [K|(bs & K)]; congruence end|].
      destruct (negb (bytes_eqb c SofaRequest_name)); [match type of Sr with v_rd (rfail ?a ?b ?c) = _ => destruct (rfail_rd a b c) as [K|(bs & K)]; congruence end|discriminate].
    + apply ready_false in Rd; [|exact X]. apply unit_None_parts; eauto.
Qed.
Lemma cuts_tail bs l m r r' : cuts bs l r -> Forall nonfatal l -> cuts bs (l ++ m) r' -> cuts r m r'.
Proof.
  intros C. revert m r'. induction C as [bs|a i r O F|a i bs l r O F C IH]; intros m r' Nf C'.
  - exact C'.
  - inversion Nf; subst. contradiction.
  - inversion Nf; subst. cbn [app] in C'. inversion C' as [|a' i' ? O' F' E|a' i' bs' l'' ? O' F' C'' E]; subst.
    + contradiction.
    + destruct (one_fun _ _ _ _ _ _ O O' (eq_sym E)) as (_ & <- & _). apply IH; assumption.
Qed.
Lemma cuts_head bs i l r : cuts bs (i :: l) r -> exists a y, bs = a ++ y /\ one a i.
Proof. intros C. inversion C; subst; eauto. Qed.
Lemma waiting_going s : waiting s -> going (v_rd s).
Proof. intros (R & _). destruct (v_rd s); solve [exact Logic.I | destruct R]. Qed.
Lemma waiting_open s : good s -> waiting s -> v_closed s = false.
Proof. intros (V & reg & fin & O) (R & _). destruct (v_closed s) eqn:E; [|reflexivity]. destruct (oo_closed _ _ _ O E) as [K|K]; rewrite K in R; destruct R. Qed.
Lemma waiting_all s items rest : good s -> waiting s -> cuts (v_in s) items rest -> exists m, v_items s = items ++ m.
Proof.
  intros G W C. pose proof G as ((I & _ & _) & _). destruct (so_cuts _ I) as (r & C0 & A). destruct (cuts_comparable _ _ _ _ _ C0 C) as [(m & E)|(m & E)]; [|eauto].
  destruct m as [|i m]; [exists []; rewrite app_nil_r in *; congruence|]. exfalso. rewrite E in C. pose proof (cuts_tail _ _ _ _ _ C0 (so_live _ I (waiting_going s W)) C) as K.
  destruct (cuts_head _ _ _ _ K) as (a & y & -> & O). apply one_unit in O. apply (unit_more _ y) in O. rewrite (waiting_rest s _ W A) in O. discriminate.
Qed.
Lemma run_cuts U reg tr l : exists rest, cuts (fed l) (v_items (srun U reg tr l)) rest.
Proof. destruct (good_run U reg tr l) as ((I & _) & _). destruct (so_cuts _ I) as (r & C & _). rewrite in_run in C. eauto. Qed.
Lemma waiting_item U reg tr l items rest n x : waiting (srun U reg tr l) -> cuts (fed l) items rest -> nth_error items n = Some x -> nth_error (v_items (srun U reg tr l)) n = Some x.
Proof.
  intros W C N. pose proof (good_run U reg tr l) as G. rewrite <- (in_run U reg tr l) in C. destruct (waiting_all _ _ _ G W C) as (m & ->). apply nth_app_some. exact N.
Qed.
Lemma waiting_same s1 s2 : good s1 -> good s2 -> waiting s1 -> waiting s2 -> v_in s1 = v_in s2 -> v_items s1 = v_items s2.
Proof.
  intros G1 G2 W1 W2 E. pose proof G1 as ((I1 & _) & _). pose proof G2 as ((I2 & _) & _). destruct (so_cuts _ I1) as (r1 & C1 & _). destruct (so_cuts _ I2) as (r2 & C2 & _).
  pose proof C1 as C1'. rewrite E in C1'. pose proof C2 as C2'. rewrite <- E in C2'. destruct (waiting_all s2 _ _ G2 W2 C1') as (m & H1). destruct (waiting_all s1 _ _ G1 W1 C2') as (k & H2).
  rewrite H2 in H1. rewrite <- app_assoc in H1. rewrite <- (app_nil_r (v_items s2)) in H1 at 1. apply app_inv_head in H1. symmetry in H1. apply app_eq_nil in H1 as [-> ->]. rewrite app_nil_r in H2. exact H2.
Qed.

(** ** Bad frames are answered *)
Definition bads_ok (s : sst) : Prop := v_closed s = false -> forall n id st, nth_error (v_items s) n = Some (IBad id st) ->
  v_rd s = RDied \/ exists bs, response bs id 2 st [] /\ ((v_rd s = RFail1 bs /\ (n = List.length (v_heads s) - 1)%nat) \/ answers n s = [bs]).
Lemma answers_grow_out n s s' x : v_out s' = v_out s ++ x -> answers n s' = answers n s ++ map snd (filter (fun y : nat * bytes => Nat.eqb (fst y) n) x).
Proof. intros H. unfold answers. rewrite H. apply answers_app. Qed.
Lemma one_answer n s bs : NoDup (map fst (v_out s)) -> In (n, bs) (v_out s) -> answers n s = [bs].
Proof.
  intros N H. pose proof (answers_once n s N) as L. apply answers_in in H. destruct (answers n s) as [|b [|b' r]]; cbn in *; [contradiction|destruct H as [->|[]]; reflexivity|lia].
Qed.
Lemma answers_kept s s' reg' fin' bs n x : out_ok s' reg' fin' -> v_closed s' = false -> v_out s' = v_out s ++ x -> answers n s = [bs] -> answers n s' = [bs].
Proof.
  intros O Cl E H. assert (Fi : fin' = []) by (destruct (oo_fin _ _ _ O) as [K|(K & _)]; [exact K|congruence]). subst fin'. pose proof (oo_split _ _ _ O) as S. rewrite app_nil_r in S.
  apply one_answer; [rewrite S; exact (oo_once _ _ _ O)|]. rewrite E. apply in_or_app. left. apply answers_in. rewrite H. left. reflexivity.
Qed.
Lemma out_grows U o s : good s -> exists x, v_out (srun_step U o s) = v_out s ++ x.
Proof.
  intros ((I & T & J) & _). pose proof (step_eff U o s I T) as E. remember (srun_step U o s) as s1 eqn:E1. clear E1.
  destruct E as [o|name sv|bs| | |s' E|ok s' E|o i s' E O|o s' E O]; try (exists []; now rewrite app_nil_r).
  - apply rstep_same in E as (E & _). exists []. now rewrite app_nil_r.
  - inversion E; subst; try (exists []; cbn; now rewrite app_nil_r); eexists; reflexivity.
  - inversion E; subst; try (exists []; cbn; now rewrite app_nil_r); [|eexists; reflexivity]. exists []. rewrite app_nil_r. apply expire_out.
  - apply jeff_same in E as (_ & _ & _ & _ & E). exists []. now rewrite app_nil_r.
Qed.
Lemma bads_step U o s : good s -> bads_ok s -> bads_ok (srun_step U o s).
Proof.
  intros G B Cl n id st N. pose proof (good_step U o s G) as G'. pose proof (closed_step U o s G Cl) as Cl0. pose proof (open_out _ G' Cl) as O'. destruct (out_grows U o s G) as (x & Ho). specialize (B Cl0).
  pose proof G as ((I & T & J) & _). pose proof (open_out s G Cl0) as Ob. pose proof (step_eff U o s I T) as E. remember (srun_step U o s) as s1 eqn:E1. clear E1.
  assert (keep : v_rd s1 = v_rd s -> v_heads s1 = v_heads s -> v_items s1 = v_items s -> v_rd s1 = RDied \/ exists bs, response bs id 2 st [] /\ ((v_rd s1 = RFail1 bs /\ (n = List.length (v_heads s1) - 1)%nat) \/ answers n s1 = [bs])).
  { intros E1 E2 E3. rewrite E3 in N. rewrite E1, E2. destruct (B n id st N) as [D|(bs & R & [K|K])]; [left; exact D|right; exists bs; auto|right; exists bs; split; [exact R|]; right; exact (answers_kept s s1 _ _ bs n x O' Cl Ho K)]. }
  destruct E as [o|name sv|bs| | |s' E|ok s' E|o i s' E Oo|o s' E Oo]; try (apply keep; reflexivity).
  - inversion E as [E0|st0 R C E0|n0 h R E0|n0 pc R M E0|n0 i s0 H R A E0]; subst; [apply keep; reflexivity|..].
    1-3: destruct (B n id st N) as [D|(bs & Rs & [(K & _)|K])]; [rewrite D in R; cbn in R; congruence || contradiction|rewrite K in R; cbn in R; congruence || contradiction|];
      right; exists bs; split; [exact Rs|]; right; exact (answers_kept s _ _ _ bs n x O' Cl Ho K).
    assert (Hit : v_items s' = v_items s ++ [i]) by (inversion A; subst; reflexivity). rewrite Hit in N. destruct (Nat.lt_ge_cases n (List.length (v_items s))) as [L|L].
    + rewrite nth_error_app1 in N by exact L. destruct (B n id st N) as [D|(bs & Rs & [(K & _)|K])]; [rewrite D in R; destruct R|rewrite K in R; destruct R|].
      right. exists bs. split; [exact Rs|]. right. exact (answers_kept s _ _ _ bs n x O' Cl Ho K).
    + rewrite nth_error_app2 in N by exact L. destruct (n - List.length (v_items s))%nat as [|k] eqn:En; [|destruct k; discriminate]. cbn in N. injection N as ->.
      inversion A; subst. right. eexists. split; [apply fail_bytes_inv; eassumption|]. left. split; [reflexivity|]. cbn [set_rd v_heads set_items take set_stream]. rewrite (heads_length s _ H). lia.
  - pose proof (deff_same _ _ E) as (Sh & _ & _ & _ & Si & _). inversion E as [bs R C E0|R E0|R E0|st0 fi R Fi E0|R E0]; subst.
    + destruct (B n id st N) as [D|(b0 & Rs & [(K & Kn)|K])]; [congruence| |].
      * right. exists b0. split; [exact Rs|]. right. assert (b0 = bs) by congruence. subst b0. apply one_answer; [exact (oo_once _ _ _ O')|]. cbn [set_rd set_out v_out]. apply in_or_app. right. left. congruence.
      * right. exists b0. split; [exact Rs|]. right. exact (answers_kept s _ _ _ b0 n x O' Cl Ho K).
    + left. reflexivity.
    + destruct (B n id st N) as [D|(b0 & Rs & [(K & Kn)|K])]; [congruence..|]. right. exists b0. split; [exact Rs|]. right. exact K.
    + discriminate.
    + destruct (B n id st N) as [D|(b0 & Rs & [(K & Kn)|K])]; [congruence..|]. right. exists b0. split; [exact Rs|]. right. exact K.
  - apply teff_same in E as ((S1 & S2 & _ & _ & _ & S6 & _) & _). apply keep; assumption.
  - apply jeff_same in E as ((S1 & S2 & _ & _ & _ & S6 & _) & _). apply keep; assumption.
Qed.
Lemma bads_from U l : forall s, good s -> bads_ok s -> bads_ok (sfrom U s l).
Proof. induction l as [|o l IH]; intros s G B; [exact B|]. apply IH; [apply good_step; exact G|apply bads_step; assumption]. Qed.
Lemma bads_run U reg tr l : bads_ok (srun U reg tr l).
Proof. apply bads_from; [apply good_init|]. intros _ [|n] id st H; discriminate. Qed.
Lemma waiting_bad U reg tr l items rest n id st : let s := srun U reg tr l in waiting s -> cuts (fed l) items rest -> nth_error items n = Some (IBad id st) -> exists bs, answers n s = [bs] /\ response bs id 2 st [].
Proof.
  intros s W C N. pose proof (good_run U reg tr l) as G. pose proof (waiting_item U reg tr l items rest n _ W C N) as Ni. destruct (bads_run U reg tr l (waiting_open _ G W) n id st Ni) as [D|(bs & R & [(K & _)|K])].
  - destruct W as (R & _). fold s in R, D. rewrite D in R. destruct R.
  - destruct W as (R' & _). fold s in R', K. rewrite K in R'. destruct R'.
  - exists bs. auto.
Qed.

(** ** Frames handed on *)
Lemma answering_exists s n x : good s -> nth_error (v_items s) n = Some x -> (forall q, x = IRequest q -> exists i p, answering s i n (Some q) p) /\ (forall id, x = IHeartbeat id -> exists i p, answering s i n None p).
Proof.
  intros ((I & T & J) & _) N.
  assert (K : forall r, item_for r x -> exists i p, answering s i n r p).
  { intros r F. assert (H : In (n, r) (accepted 0 (v_items s))) by (apply accepted_nth; exists x; rewrite Nat.sub_0_r; auto with arith).
    rewrite <- (to_ids _ T) in H. apply in_map_iff in H as (t & E & H). apply In_nth_error in H as (i & H). exists i, (a_pc t). unfold answering. rewrite H. unfold tid in E. destruct t as [a b c]. cbn in *. congruence. }
  split; intros ? ->; apply K; cbn; eauto.
Qed.
Lemma answering_item s i n r p : good s -> answering s i n r p -> exists x, nth_error (v_items s) n = Some x /\ item_for r x.
Proof. intros ((I & T & J) & _) A. exact (task_item s i _ T A). Qed.
Lemma handed_accepted s : good s -> map tid (v_tasks s) = accepted 0 (v_items s).
Proof. intros ((_ & T & _) & _). apply to_ids. exact T. Qed.

(** ** Heartbeats *)
Definition beats_ok (s : sst) : Prop := v_closed s = false -> forall i n p, answering s i n None p -> exists id bs, nth_error (v_items s) n = Some (IHeartbeat id) /\ response bs id 0 0 [] /\ fate s i n None bs.
Lemma beats_step U o s : good s -> beats_ok s -> beats_ok (srun_step U o s).
Proof.
  intros G B Cl i n p A. pose proof (good_step U o s G) as G'. pose proof (closed_step U o s G Cl) as Cl0. specialize (B Cl0). destruct (items_step U o s G) as (m & Hi).
  destruct (nth_error (v_tasks s) i) as [t|] eqn:Nt.
  - assert (Ht : exists p0, answering s i n None p0).
    { exists (a_pc t). unfold answering. rewrite Nt. destruct (step_task U o s i t G Nt Cl) as [(N & _)|(E & _)].
      - unfold answering in A. rewrite N in A. injection A as ->. reflexivity.
      - destruct (teff_tasks _ _ _ _ E) as (p0 & Et). unfold answering in A. rewrite Et in A. erewrite nth_upd_same in A by exact Nt. destruct t as [a b c]. unfold with_pc in A. cbn in *. congruence. }
    destruct Ht as (p0 & A0). destruct (B i n p0 A0) as (id & bs & Ni & R & F). exists id, bs. split; [rewrite Hi; apply nth_app_some; exact Ni|]. split; [exact R|]. apply fate_step; assumption.
  - destruct (answering_item _ _ _ _ _ G' A) as (x & Nx & Fx). cbn in Fx. destruct Fx as (id & ->). pose proof G' as ((I' & T' & J') & _). destruct (to_beats _ T' i _ A eq_refl) as (id' & Ni & Pc). cbn [a_frame a_pc] in *.
    assert (X : exists bs, p = TDrain1 bs).
    { pose proof G as ((I & T & J) & _). pose proof (step_eff U o s I T) as E. clear G' Cl I' T' J' Ni Nx Pc Hi. remember (srun_step U o s) as s1 eqn:E1. clear E1.
      destruct E as [o|name sv|bs| | |s' E|ok s' E|o k s' E Oo|o s' E Oo]; try (unfold answering in A; cbn in A; congruence).
      + inversion E as [E0|st0 R C E0|n0 h R E0|n0 pc R M E0|n0 y s0 H R Af E0]; subst; try (unfold answering in A; cbn in A; congruence).
        assert (L : (List.length (v_tasks s) <= i)%nat) by (apply nth_error_None; exact Nt). inversion Af; subst; try (unfold answering in A; cbn in A; congruence);
          unfold answering, spawn in A; cbn [set_rd set_tasks set_items take set_stream v_tasks v_heads] in A; rewrite nth_error_app2 in A by exact L; destruct (i - List.length (v_tasks s))%nat as [|k0]; cbn in A; try (destruct k0; discriminate); [discriminate|].
        injection A as _ <-. eauto.
      + pose proof (deff_same _ _ E) as (_ & _ & _ & _ & _ & _ & St & _). unfold answering in A. congruence.
      + destruct (teff_tasks _ _ _ _ E) as (p0 & Et). unfold answering in A. rewrite Et in A. apply nth_upd_inv in A as [(_ & t & A & _)|(_ & A)]; congruence.
      + pose proof (jeff_same _ _ E) as (_ & _ & _ & St & _). unfold answering in A. congruence. }
    destruct X as (bs & ->). exists id', bs. split; [exact Ni|]. split; [apply beat_bytes_inv; exact Pc|]. left. split; [exact A|]. exact (unanswered _ i n _ _ G' Cl A Logic.I).
Qed.
Lemma beats_run U reg tr l : beats_ok (srun U reg tr l).
Proof.
  assert (K : forall l s, good s -> beats_ok s -> beats_ok (sfrom U s l)) by (clear; induction l as [|o l IH]; intros s G B; [exact B|]; apply IH; [apply good_step; exact G|apply beats_step; assumption]).
  apply K; [apply good_init|]. intros _ [|i] n p H; discriminate.
Qed.

(** a coroutine whose answer was in hand from the start raises only if a drain fails *)
Lemma beat_raised U reg tr l i n e : let s := srun U reg tr l in v_closed s = false -> ~ In (Drain i false) l -> ~ answering s i n None (TRaised e).
Proof.
  intros s Cl No A. unfold s in *. clear s. revert e n Cl No A. induction l as [|o l IH] using rev_ind; intros e n Cl No A; [destruct i; discriminate|].
  rewrite srun_app in *. cbn [sfrom fold_left] in *. pose proof (good_run U reg tr l) as G. pose proof (closed_step U o _ G Cl) as Cl0.
  assert (No' : ~ In (Drain i false) l) by (intros H; apply No; apply in_or_app; auto). assert (No2 : o <> Drain i false) by (intros ->; apply No; apply in_or_app; right; left; reflexivity).
  pose proof (beats_run U reg tr l Cl0) as B. set (s := srun U reg tr l) in *. pose proof (good_step U o s G) as G'.
  assert (Ex : exists p, answering s i n None p).
  { destruct (nth_error (v_tasks s) i) as [t|] eqn:Nt.
    - exists (a_pc t). unfold answering. rewrite Nt. destruct (step_task U o s i t G Nt Cl) as [(N & _)|(E & _)].
      + unfold answering in A. rewrite N in A. injection A as ->. reflexivity.
      + destruct (teff_tasks _ _ _ _ E) as (p0 & Et). unfold answering in A. rewrite Et in A. erewrite nth_upd_same in A by exact Nt. destruct t as [a b c]. unfold with_pc in A. cbn in *. congruence.
    - exfalso. pose proof G as ((I & T & J) & _). pose proof (step_eff U o s I T) as E. clear G' Cl. remember (srun_step U o s) as s1 eqn:E1. clear E1.
      destruct E as [o|name sv|bs| | |s' E|ok s' E|o k s' E Oo|o s' E Oo]; try (unfold answering in A; cbn in A; congruence).
      + destruct (rstep_tasks _ _ E) as [Ht|(q & p & Ht & K)]; unfold answering in A; rewrite Ht in A; [congruence|].
        assert (L : (List.length (v_tasks s) <= i)%nat) by (apply nth_error_None; exact Nt). rewrite nth_error_app2 in A by exact L. destruct (i - List.length (v_tasks s))%nat as [|k0]; cbn in A; [|destruct k0; discriminate]. injection A as _ -> ->. destruct K as [(r & K1 & K2)|(_ & bs & K2)]; discriminate.
      + pose proof (deff_same _ _ E) as (_ & _ & _ & _ & _ & _ & St & _). unfold answering in A. congruence.
      + destruct (teff_tasks _ _ _ _ E) as (p0 & Et). unfold answering in A. rewrite Et in A. apply nth_upd_inv in A as [(_ & t & A & _)|(_ & A)]; congruence.
      + pose proof (jeff_same _ _ E) as (_ & _ & _ & St & _). unfold answering in A. congruence. }
  destruct Ex as (p & A0). destruct (B i n p A0) as (id & bs & _ & _ & F). apply No2. exact (raised_step U o s i n None e bs G Cl F (fun e' => IH e' n Cl0 No') A).
Qed.

(** ** One-way requests *)
Definition oneways_ok (s : sst) : Prop := v_closed s = false -> forall i n q p, answering s i n (Some q) p -> q_type q = 2 -> In n (map j_frame (v_jobs s)) -> over s i n (Some q).
Lemma jids_frames l l' : map jid l = map jid l' -> map j_frame l = map j_frame l'.
Proof. intros H. assert (E : forall l, map j_frame l = map (fun x => fst (fst (fst (fst x)))) (map jid l)) by (intros; rewrite map_map; reflexivity). rewrite !E, H. reflexivity. Qed.
Lemma answering_before U o s i n r p : good s -> v_closed (srun_step U o s) = false -> answering (srun_step U o s) i n r p ->
  (exists p0, answering s i n r p0) \/ (n = List.length (v_items s) /\ ((exists q, r = Some q /\ p = TStart) \/ (r = None /\ exists bs, p = TDrain1 bs))).
Proof.
  intros G Cl A. destruct (nth_error (v_tasks s) i) as [t|] eqn:Nt.
  - left. exists (a_pc t). unfold answering. rewrite Nt. destruct (step_task U o s i t G Nt Cl) as [(N & _)|(E & _)].
    + unfold answering in A. rewrite N in A. injection A as ->. reflexivity.
    + destruct (teff_tasks _ _ _ _ E) as (p0 & Et). unfold answering in A. rewrite Et in A. erewrite nth_upd_same in A by exact Nt. destruct t as [a b c]. unfold with_pc in A. cbn in *. congruence.
  - right. pose proof G as ((I & T & J) & _). pose proof (step_eff U o s I T) as E. clear Cl. remember (srun_step U o s) as s1 eqn:E1. clear E1.
    destruct E as [o|name sv|bs| | |s' E|ok s' E|o k s' E Oo|o s' E Oo]; try (unfold answering in A; cbn in A; congruence).
    + destruct (rstep_tasks _ _ E) as [Ht|(q & p1 & Ht & K)]; unfold answering in A; rewrite Ht in A; [congruence|].
      assert (L : (List.length (v_tasks s) <= i)%nat) by (apply nth_error_None; exact Nt). rewrite nth_error_app2 in A by exact L. destruct (i - List.length (v_tasks s))%nat as [|k0]; cbn in A; [|destruct k0; discriminate]. injection A as <- <- <-. auto.
    + pose proof (deff_same _ _ E) as (_ & _ & _ & _ & _ & _ & St & _). unfold answering in A. congruence.
    + destruct (teff_tasks _ _ _ _ E) as (p0 & Et). unfold answering in A. rewrite Et in A. apply nth_upd_inv in A as [(_ & t & A & _)|(_ & A)]; congruence.
    + pose proof (jeff_same _ _ E) as (_ & _ & _ & St & _). unfold answering in A. congruence.
Qed.
Lemma frames_step U o s : good s -> map j_frame (v_jobs (srun_step U o s)) = map j_frame (v_jobs s) \/
  exists i t q sv m c tr fresh, nth_error (v_tasks s) i = Some t /\ a_req t = Some q /\ a_pc t = TStart /\
    srun_step U o s = tgoto i (if q_type q =? 2 then TDone else TWait (List.length (v_jobs s))) (set_jobs (set_trace s tr) (v_jobs s ++ [new_job (a_frame t) q sv m c])) /\ o = Dispatch i fresh /\
    names_service (q_header q) sv /\ names_method (q_header q) m /\ offers (v_reg s) sv m /\ extract U (v_trace s) (q_header q) fresh = (tr, Ok c).
Proof.
  intros G. assert (D : (exists i f, o = Dispatch i f) \/ forall i f, o <> Dispatch i f) by (destruct o; eauto; right; discriminate). pose proof G as ((I & T & J) & _). destruct D as [(i & f & ->)|D].
  - cbn [srun_step]. destruct (nth_error (v_tasks s) i) as [t|] eqn:Nt; [|auto]. destruct (a_pc t) eqn:Pc; auto. destruct (a_req t) as [q|] eqn:Rq; [|auto]. unfold dispatch.
    assert (tf : forall id st s0, v_jobs s0 = v_jobs s -> map j_frame (v_jobs (tfail i id st s0)) = map j_frame (v_jobs s)) by (intros id st s0 E; unfold tfail; destruct (fail_bytes id st); cbn; congruence).
    destruct (service_name (q_header q)) as [sv|] eqn:Es; [|left; apply tf; reflexivity]. destruct (method_name (q_header q)) as [m|] eqn:Em; [|left; apply tf; reflexivity].
    destruct (extract U (v_trace s) (q_header q) f) as [tr [c|e]] eqn:Ex; [|auto]. cbv zeta. change (v_reg (set_trace s tr)) with (v_reg s). destruct (find_method (v_reg s) sv m) as [[]|e] eqn:Ef.
    + right. exists i, t, q, sv, m, c, tr, f. apply service_name_iff in Es. apply method_name_iff in Em. apply find_method_Ok in Ef. change PTYPE_ONEWAY with 2. repeat (split; [first [assumption|destruct (q_type q =? 2); reflexivity|reflexivity]|]). exact Ex.
    + left. destruct e; (apply tf; reflexivity) || reflexivity.
  - left. assert (tf : forall i id st s0, v_jobs (tfail i id st s0) = v_jobs s0) by (intros i id st s0; unfold tfail; destruct (fail_bytes id st); reflexivity).
    destruct o as [name sv|bs| | | |ok|i fresh|i ok|j|j r|i|i]; try reflexivity.
    + cbn [srun_step]. pose proof (proj1 (sread_ok s I)) as E. apply rstep_same in E as (_ & _ & _ & E & _). now rewrite E.
    + pose proof (step_eff U (DrainR ok) s I T) as E. remember (srun_step U (DrainR ok) s) as s1 eqn:E1. clear E1. remember (DrainR ok) as o eqn:Eo.
      destruct E as [o|name sv|bs| | |s' E|ok' s' E|o k s' E Oo|o s' E Oo]; try discriminate; try reflexivity.
      * apply deff_same in E as (_ & _ & _ & _ & _ & _ & _ & E & _). now rewrite E.
      * exfalso. destruct Oo as [->|[->|[(f & ->)|(ok' & ->)]]]; discriminate.
      * exfalso. destruct Oo as (j & [->|(r & ->)]); discriminate.
    + exfalso. exact (D i fresh eq_refl).
    + cbn [srun_step]. destruct (nth_error (v_tasks s) i) as [t|]; [|reflexivity]. destruct (a_pc t); try reflexivity. destruct ok; [|reflexivity]. unfold swrite. destruct (v_closed s); reflexivity.
    + cbn [srun_step]. destruct (nth_error (v_jobs s) j) as [b|]; [|reflexivity]. destruct (j_state b); try reflexivity. apply jids_frames, set_jstate_jids.
    + cbn [srun_step]. destruct (nth_error (v_jobs s) j) as [b|]; [|reflexivity]. destruct (j_state b); try reflexivity. apply jids_frames, set_jstate_jids.
    + cbn [srun_step]. destruct (nth_error (v_tasks s) i) as [t|]; [|reflexivity]. destruct (a_pc t); try reflexivity. destruct (a_req t) as [q|]; [|reflexivity]. destruct (nth_error (v_jobs s) j) as [b|]; [|reflexivity]. destruct (j_state b) as [| |r|]; try reflexivity.
      f_equal. unfold conclude. destruct r as [v|e]; [destruct (truthy v); [destruct (result_bytes v (q_id q))|]; reflexivity|destruct e; apply tf].
    + cbn [srun_step]. destruct (nth_error (v_tasks s) i) as [t|]; [|reflexivity]. destruct (a_pc t); try reflexivity. destruct (a_req t) as [q|]; [|reflexivity]. destruct (0 <? q_timeout q); [|reflexivity]. rewrite tf.
      apply jids_frames. apply (expire_jids j s).
Qed.
Lemma oneways_step U o s : good s -> oneways_ok s -> oneways_ok (srun_step U o s).
Proof.
  intros G B Cl i n q p A Ty H. pose proof (good_step U o s G) as G'. pose proof (closed_step U o s G Cl) as Cl0. specialize (B Cl0).
  destruct (answering_before U o s i n _ p G Cl A) as [(p0 & A0)|(_ & [(q0 & Eq & ->)|(Eq & _)])].
  - destruct (frames_step U o s G) as [E|(k & t & q0 & sv & m & c & tr & fresh & Nt & Rq & Pc & E & _)].
    + rewrite E in H. apply over_step; auto. exact (B i n q p0 A0 Ty H).
    + destruct (in_dec Nat.eq_dec n (map j_frame (v_jobs s))) as [K|K]; [apply over_step; auto; exact (B i n q p0 A0 Ty K)|].
      assert (Et : a_frame t = n).
      { rewrite E in H. unfold tgoto in H. cbn [set_tasks set_jobs v_jobs] in H. rewrite map_app in H. apply in_app_or in H as [H|[H|[]]]; [contradiction|exact H]. }
      pose proof G as ((I & T & J) & _). assert (k = i) by (apply (task_unique s k i t _ T Nt A0); exact Et). subst k. pose proof A0 as A1. unfold answering in A1. rewrite Nt in A1. injection A1 as ->. cbn [a_req a_pc a_frame] in *. injection Rq as <-. subst p0.
      split; [|pose proof (unanswered s i n _ _ G Cl0 A0 Logic.I) as B0; rewrite E; exact B0]. rewrite E, Ty. cbn [Z.eqb Pos.eqb]. eapply answering_tgoto; [exact A0|reflexivity].
  - exfalso. pose proof G' as ((I & T & J) & _). exact (jo_start _ J i _ A eq_refl H).
  - discriminate.
Qed.
Lemma oneways_run U reg tr l : oneways_ok (srun U reg tr l).
Proof.
  assert (K : forall l s, good s -> oneways_ok s -> oneways_ok (sfrom U s l)) by (clear; induction l as [|o l IH]; intros s G B; [exact B|]; apply IH; [apply good_step; exact G|apply oneways_step; assumption]).
  apply K; [apply good_init|]. intros _ [|i] n q p H; discriminate.
Qed.

(** ** Executions *)
Lemma executions_fresh U l : forall s n sv m b, good s -> In (n, sv, m, b) (executions U s l) -> forall j x, nth_error (v_jobs s) j = Some x -> j_frame x = n -> j_state x = JQueued.
Proof.
  induction l as [|o l IH]; intros s n sv m b G H j x N F; [destruct H|]. cbn [executions] in H. apply in_app_or in H as [H|H].
  - destruct o as [| | | | | | | |k| | |]; try destruct H. destruct (nth_error (v_jobs s) k) as [y|] eqn:Nk; [|destruct H]. destruct (j_state y) eqn:Sy; try destruct H; [|contradiction]. injection H as H1 H2 H3 H4.
    assert (j = k) by (pose proof G as ((_ & _ & J) & _); apply (NoDup_nth_map j_frame (v_jobs s) j k x y (jo_frames _ J)); congruence). congruence.
  - pose proof G as ((I & T & J) & _). destruct (jgrow_step U o s _ (step_eff U o s I T) j x N) as (x' & N' & E & _ & _ & Q & _). apply Q. apply (IH _ n sv m b (good_step U o s G) H j x' N'). injection E; congruence.
Qed.
Lemma executions_once U l : forall s, good s -> NoDup (map (fun e => fst (fst (fst e))) (executions U s l)).
Proof.
  induction l as [|o l IH]; intros s G; [constructor|]. cbn [executions]. pose proof (IH _ (good_step U o s G)) as N. destruct o as [| | | | | | | |k| | |]; try exact N.
  destruct (nth_error (v_jobs s) k) as [y|] eqn:Nk; [|exact N]. destruct (j_state y) eqn:Sy; try exact N. cbn [app map fst]. constructor; [|exact N]. intros H. apply in_map_iff in H as ((((n & sv) & m) & b) & E & H). cbn in E. subst n.
  assert (K : nth_error (v_jobs (srun_step U (JobRun k) s)) k = Some {| j_frame := j_frame y; j_service := j_service y; j_method := j_method y; j_body := j_body y; j_ctx := j_ctx y; j_state := JRunning |}).
  { cbn [srun_step]. rewrite Nk, Sy. rewrite set_jstate_jobs. erewrite nth_upd_same by exact Nk. reflexivity. }
  pose proof (executions_fresh U l _ _ sv m b (good_step U _ s G) H k _ K eq_refl) as Q. discriminate.
Qed.
Lemma jid_inv a b : jid a = jid b -> j_frame a = j_frame b /\ j_service a = j_service b /\ j_method a = j_method b /\ j_body a = j_body b /\ j_ctx a = j_ctx b.
Proof. intros H. injection H. auto. Qed.
Lemma executions_job U l : forall s n sv m b, good s -> In (n, sv, m, b) (executions U s l) -> exists j x, nth_error (v_jobs (sfrom U s l)) j = Some x /\ j_frame x = n /\ j_service x = sv /\ j_method x = m /\ j_body x = b /\ (j_state x = JRunning \/ exists r, j_state x = JEnded r).
Proof.
  induction l as [|o l IH]; intros s n sv m b G H; [destruct H|]. cbn [executions] in H. apply in_app_or in H as [H|H]; [|exact (IH _ n sv m b (good_step U o s G) H)].
  destruct o as [| | | | | | | |k| | |]; try destruct H. destruct (nth_error (v_jobs s) k) as [y|] eqn:Nk; [|destruct H]. destruct (j_state y) eqn:Sy; try destruct H; [|contradiction]. injection H as <- <- <- <-.
  assert (K : nth_error (v_jobs (srun_step U (JobRun k) s)) k = Some {| j_frame := j_frame y; j_service := j_service y; j_method := j_method y; j_body := j_body y; j_ctx := j_ctx y; j_state := JRunning |}).
  { cbn [srun_step]. rewrite Nk, Sy. rewrite set_jstate_jobs. erewrite nth_upd_same by exact Nk. reflexivity. }
  destruct (jobs_from U l _ (good_step U (JobRun k) s G) k _ K) as (x & Nx & Ej & _ & _ & _ & Rn). apply jid_inv in Ej as (J1 & J2 & J3 & J4 & _). exists k, x. split; [exact Nx|]. repeat (split; [assumption|]). exact (Rn eq_refl).
Qed.
Definition started (x : job) : Prop := j_state x = JRunning \/ exists r, j_state x = JEnded r.
Definition call (x : job) : nat * pystr * pystr * bytes := (j_frame x, j_service x, j_method x, j_body x).
Lemma started_before U o s j x : good s -> nth_error (v_jobs (srun_step U o s)) j = Some x -> started x ->
  exists y, nth_error (v_jobs s) j = Some y /\ call y = call x /\ (started y \/ (o = JobRun j /\ j_state y = JQueued)).
Proof.
  intros G N St. pose proof G as ((I & T & J) & _). assert (D : (exists k, o = JobRun k) \/ (exists k r, o = JobEnd k r) \/ ((forall k, o <> JobRun k) /\ forall k r, o <> JobEnd k r)) by (destruct o; eauto; right; right; split; discriminate).
  destruct D as [(k & ->)|[(k & r & ->)|(D & D')]].
  - cbn [srun_step] in N. destruct (nth_error (v_jobs s) k) as [y|] eqn:Nk; [|eauto]. destruct (j_state y) eqn:Sy; eauto. rewrite set_jstate_jobs in N. apply nth_upd_inv in N as [(<- & y' & N & ->)|(_ & N)]; [|eauto].
    assert (y' = y) by congruence. subst y'. exists y. split; [exact N|]. split; [reflexivity|]. auto.
  - cbn [srun_step] in N. destruct (nth_error (v_jobs s) k) as [y|] eqn:Nk; [|eauto]. destruct (j_state y) eqn:Sy; eauto. rewrite set_jstate_jobs in N. apply nth_upd_inv in N as [(<- & y' & N & ->)|(_ & N)]; [|eauto].
    assert (y' = y) by congruence. subst y'. exists y. split; [exact N|]. split; [reflexivity|]. left. left. exact Sy.
  - pose proof (step_eff U o s I T) as E. remember (srun_step U o s) as s1 eqn:E1. clear E1.
    destruct E as [o|name sv|bs| | |s' E|ok s' E|o i s' E Oo|o s' E Oo]; try (exists x; auto; fail).
    + apply rstep_same in E as (_ & _ & _ & E & _). rewrite E in N. eauto.
    + apply deff_same in E as (_ & _ & _ & _ & _ & _ & _ & E & _). rewrite E in N. eauto.
    + inversion E; subst; try (exists x; auto; fail).
      * unfold tgoto in N. cbn [set_tasks set_jobs v_jobs] in N. destruct (Nat.lt_ge_cases j (List.length (v_jobs s))) as [L|L]; [rewrite nth_error_app1 in N by exact L; eauto|]. exfalso.
        rewrite nth_error_app2 in N by exact L. destruct (j - List.length (v_jobs s))%nat as [|k0]; cbn in N; [|destruct k0; discriminate]. injection N as <-. destruct St as [K|(r & K)]; discriminate.
      * unfold tgoto, expire_job in N. cbn [set_tasks v_jobs] in N. destruct (nth_error (v_jobs s) j0) as [y|] eqn:Nj; [|eauto]. destruct (j_state y) eqn:Sy; eauto. rewrite set_jstate_jobs in N. apply nth_upd_inv in N as [(<- & y' & N & ->)|(_ & N)]; [|eauto].
        exfalso. destruct St as [K|(r & K)]; discriminate.
    + exfalso. destruct Oo as (k & [->|(r & ->)]); [exact (D k eq_refl)|exact (D' k r eq_refl)].
Qed.
Lemma started_executed U l : forall s j x, good s -> nth_error (v_jobs (sfrom U s l)) j = Some x -> started x ->
  In (call x) (executions U s l) \/ exists y, nth_error (v_jobs s) j = Some y /\ started y.
Proof.
  induction l as [|o l IH]; intros s j x G N St; [right; exists x; auto|]. change (sfrom U s (o :: l)) with (sfrom U (srun_step U o s) l) in N. cbn [executions].
  destruct (IH _ j x (good_step U o s G) N St) as [H|(y & Ny & Sy)]; [left; apply in_or_app; auto|].
  destruct (started_before U o s j y G Ny Sy) as (z & Nz & Ez & [Sz|(-> & Sz)]); [right; eauto|]. left. apply in_or_app. left. rewrite Nz, Sz. left.
  destruct (jobs_from U l _ (good_step U (JobRun j) s G) j y Ny) as (x' & Nx & Ej & _). assert (x' = x) by congruence. subst x'. apply jid_inv in Ej as (J1 & J2 & J3 & J4 & _). unfold call in *. congruence.
Qed.
