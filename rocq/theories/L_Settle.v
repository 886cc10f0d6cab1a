(** Lemmas behind C85: a system in which nothing fails and nothing is left to do. *)
From Coq Require Import ZifyBool Strings.String.
From Verif Require Import PyBase L_PyBase PyDict L_PyDict PyInt L_PyInt Struct M_SofaHeader L_SofaHeader M_Package L_Package L_Codec M_RpcId M_Trace S_Wire M_SyncClient L_SyncClient
  M_AioServer S_Server L_AioServer L_AioServer2 L_AioServer3 L_AioServer4 L_AioServer5 L_AioServer6 L_AioServer7 L_AioServer8 L_AioServer9 L_Settle2 L_EndToEnd M_System S_System L_System S_Settle.
From Verif Require M_AioClient L_AioClient L_AioClient2 L_AioClient4 L_AioClient6 L_System1 L_Settle1 L_Front.
Open Scope Z_scope.

Notation ctask s i := (nth_error (M_AioClient.s_tasks s) i).
Notation cpc := M_AioClient.t_pc.
Notation creq := M_AioClient.t_req.

(** ** Histories *)
Lemma yrun_snoc U t l o : y_run U t (l ++ [o]) = y_step U t o (y_run U t l).
Proof. unfold y_run. rewrite fold_left_app. reflexivity. Qed.
Lemma hist_step U t o y : smooth o -> y_hist (y_step U t o y) = y_hist y \/ exists co, L_Settle1.calm co /\ y_hist (y_step U t o y) = y_hist y ++ [co].
Proof.
  intros S. destruct o as [d rid a|i reg tr|o|c o|c n|c n]; cbn [y_step].
  - destruct (y_request d rid) as [p|] eqn:E; [|left; reflexivity]. right. eexists. split; [|reflexivity]. exact (S p E).
  - cbv zeta. destruct (Nat.ltb _ _); [|left; reflexivity]. right. exists (M_AioClient.DialOk i). split; [exact Logic.I|reflexivity].
  - destruct o; cbn in S; try contradiction; try (left; reflexivity); right; (eexists; split; [|reflexivity]; try exact Logic.I; exact S).
  - destruct o; left; reflexivity.
  - destruct (nth_error _ _); left; reflexivity.
  - destruct (nth_error (y_conns y) c); [|left; reflexivity]. destruct (nth_error _ _); [|left; reflexivity]. right. eexists. split; [|reflexivity]. exact Logic.I.
Qed.
Lemma calm_hist U t l : Forall smooth l -> Forall L_Settle1.calm (y_hist (y_run U t l)).
Proof.
  induction l as [|o l IH] using rev_ind; intros H; [constructor|]. apply Forall_app in H as (H & Ho). apply Forall_inv in Ho. rewrite yrun_snoc.
  destruct (hist_step U t o (y_run U t l) Ho) as [->|(co & C & ->)]; [exact (IH H)|]. apply Forall_app. split; [exact (IH H)|repeat constructor; exact C].
Qed.
Record conn_ok (l : list ystep) (c : nat) (k : yconn) : Prop := {
  co_calm : Forall scalm (y_steps k);
  co_from : exists i, In (YDial i (y_reg k) (y_tr k)) l;
  co_steps : forall o, In o (y_steps k) -> match o with Feed _ => True | _ => In (YServer c o) l end }.
Lemma conn_more l o c k : conn_ok l c k -> conn_ok (l ++ [o]) c k.
Proof.
  intros [A (i & B) C]. constructor; [exact A|exists i; apply in_or_app; left; exact B|]. intros x Hx. specialize (C x Hx). destruct x; try exact C; apply in_or_app; left; exact C.
Qed.
Lemma conn_snoc l o c k x : conn_ok l c k -> scalm x -> match x with Feed _ => True | _ => o = YServer c x end -> conn_ok (l ++ [o]) c {| y_reg := y_reg k; y_tr := y_tr k; y_steps := y_steps k ++ [x] |}.
Proof.
  intros K S E. apply (conn_more l o) in K. destruct K as [A B C]. constructor; cbn [y_reg y_tr y_steps]; [apply Forall_app; split; [exact A|repeat constructor; exact S]|exact B|].
  intros z Hz. apply in_app_iff in Hz as [Hz|[<-|[]]]; [exact (C z Hz)|]. destruct x; try exact Logic.I; subst o; apply in_or_app; right; left; reflexivity.
Qed.
Lemma conns_ok U t l : Forall smooth l -> forall c k, nth_error (y_conns (y_run U t l)) c = Some k -> conn_ok l c k.
Proof.
  induction l as [|o l IH] using rev_ind; intros H c k Hk; [destruct c; discriminate|]. apply Forall_app in H as (H & Ho). apply Forall_inv in Ho. specialize (IH H). rewrite yrun_snoc in Hk. set (y := y_run U t l) in *.
  assert (Z : nth_error (y_conns y) c = Some k -> conn_ok (l ++ [o]) c k) by (intros K; apply conn_more; exact (IH c k K)).
  assert (W : forall c' x, scalm x -> match x with Feed _ => True | _ => o = YServer c' x end -> nth_error (y_conns (y_server_step c' x y)) c = Some k -> conn_ok (l ++ [o]) c k).
  { intros c' x S E K. cbn [y_server_step y_conns] in K. apply nth_upd_inv in K as [(<- & k0 & K & ->)|(_ & K)]; [|exact (Z K)]. apply conn_snoc; [exact (IH _ _ K)|exact S|exact E]. }
  destruct o as [d rid a|i reg tr|o|c' o|c' n|c' n]; cbn [y_step] in Hk.
  - destruct (y_request d rid); exact (Z Hk).
  - cbv zeta in Hk. destruct (Nat.ltb _ _); [|exact (Z Hk)]. cbn [y_conns] in Hk. destruct (Nat.lt_ge_cases c (List.length (y_conns y))) as [L|L]; [rewrite nth_error_app1 in Hk by exact L; exact (Z Hk)|].
    rewrite nth_error_app2 in Hk by exact L. apply nth_error_In in Hk. destruct Hk as [<-|[]]. constructor; cbn [y_reg y_tr y_steps]; [constructor|exists i; apply in_or_app; right; left; reflexivity|intros x []].
  - destruct o; exact (Z Hk).
  - destruct o as [name sv|bs| | | |ok|i f|i ok|j|j r|i|i]; try exact (Z Hk); try (eapply (W c'); [| |exact Hk]; [exact Ho|reflexivity]).
  - destruct (nth_error (y_conns y) c') as [k'|]; [|exact (Z Hk)]. eapply (W c'); [| |exact Hk]; exact Logic.I.
  - destruct (nth_error (y_conns y) c'); [|exact (Z Hk)]. destruct (nth_error _ c'); exact (Z Hk).
Qed.

(** ** Settled systems *)
Lemma dialok_grows s i : M_AioClient.run_step (M_AioClient.DialOk i) s = s \/ (List.length (M_AioClient.s_links s) < List.length (M_AioClient.s_links (M_AioClient.run_step (M_AioClient.DialOk i) s)))%nat.
Proof.
  cbn [M_AioClient.run_step]. destruct (ctask s i) as [tk|]; [|left; reflexivity]. destruct (cpc tk); try (left; reflexivity). destruct (M_AioClient.t_addr tk); [|left; reflexivity]. right.
  destruct (dsetdefault _ _ _) as (d, c'). cbn. rewrite app_length. cbn. lia.
Qed.
Lemma settled_idle U t y : settled U t y -> L_Settle1.idle (y_client t y).
Proof.
  intros S i. assert (Z : forall o, routine (YClient o) -> y_step U t (YClient o) y = y_client_step o y -> M_AioClient.run_step o (y_client t y) = y_client t y).
  { intros o R E. destruct (S _ R) as (A & _). rewrite E, client_snoc in A. exact A. }
  repeat split; try (apply Z; [exact Logic.I|reflexivity]).
  destruct (S (YDial i [] t_init) Logic.I) as (A & _). cbn [y_step] in A. cbv zeta in A. destruct (dialok_grows (y_client t y) i) as [E|E]; [exact E|].
  rewrite client_snoc in A. apply Nat.ltb_lt in E. rewrite E in A. unfold y_client in A at 1. cbn [y_hist y_client_step] in A. rewrite L_Settle1.run_snoc in A. exact A.
Qed.
Lemma server_snoc U k o : y_server U {| y_reg := y_reg k; y_tr := y_tr k; y_steps := y_steps k ++ [o] |} = srun_step U o (y_server U k).
Proof. unfold y_server. cbn [y_reg y_tr y_steps]. apply srun_snoc. Qed.
Lemma server_same U y c k o : nth_error (y_conns y) c = Some k -> map (y_server U) (y_conns (y_server_step c o y)) = map (y_server U) (y_conns y) -> srun_step U o (y_server U k) = y_server U k.
Proof.
  intros Hk A. cbn [y_server_step y_conns] in A. apply (f_equal (fun m => nth_error m c)) in A. rewrite !nth_error_map, Hk, (nth_upd_same _ _ _ _ Hk) in A. cbn [option_map] in A. rewrite server_snoc in A. congruence.
Qed.
Lemma settled_server U t y c k : settled U t y -> nth_error (y_conns y) c = Some k -> sidle U (y_server U k).
Proof.
  intros S Hk o R. assert (E : y_step U t (YServer c o) y = y_server_step c o y) by (destruct o; cbn in R; try contradiction; reflexivity).
  assert (R' : routine (YServer c o)) by (destruct o as [| | | | |[]| |? []| | | |]; cbn in R |- *; exact R). destruct (S _ R') as (_ & A). rewrite E in A. exact (server_same U y c k o Hk A).
Qed.
Lemma skipn_nil_prefix {A} (a b : list A) : prefix a b -> skipn (List.length a) b = [] -> a = b.
Proof. intros (c & ->) H. rewrite L_System1.skipn_app_len in H. subst c. rewrite app_nil_r. reflexivity. Qed.
Lemma settled_up U t l c k : let y := y_run U t l in settled U t y -> nth_error (y_conns y) c = Some k -> y_got k = y_sent (y_client t y) c.
Proof.
  intros y S Hk. apply skipn_nil_prefix; [exact (yi_up _ _ _ _ (yinv_run U t l) c k Hk)|]. set (x := skipn _ _). destruct (S (YUp c (List.length x)) Logic.I) as (_ & A). cbn [y_step] in A. rewrite Hk in A. fold x in A. rewrite firstn_all in A.
  apply (server_same U y c k _ Hk) in A. apply (f_equal v_in) in A. cbn [srun_step set_stream v_in] in A. apply (f_equal (@List.length _)) in A. rewrite app_length in A. destruct x; [reflexivity|cbn in A; lia].
Qed.
Lemma settled_down U t l c k lk : let y := y_run U t l in settled U t y -> nth_error (y_conns y) c = Some k -> nth_error (M_AioClient.s_links (y_client t y)) c = Some lk -> M_AioClient.k_in lk = y_replied (y_server U k).
Proof.
  intros y S Hk Hl. assert (Hi : nth_error (ins (y_client t y)) c = Some (M_AioClient.k_in lk)) by (unfold L_System1.ins; rewrite nth_error_map, Hl; reflexivity).
  apply skipn_nil_prefix; [exact (yi_down _ _ _ _ (yinv_run U t l) c k _ Hk Hi)|]. set (x := skipn _ _). destruct (S (YDown c (List.length x)) Logic.I) as (A & _). cbn [y_step] in A. fold y in A. rewrite Hk, Hl in A. fold x in A. rewrite firstn_all, client_snoc in A.
  destruct (L_System1.step_moves (M_AioClient.Feed c x) (y_client t y)) as (I & _). rewrite A in I. apply (f_equal (fun m => nth_error m c)) in I. rewrite (L_Front.upd_here _ _ _ _ Hi), Hi in I. injection I as I.
  apply (f_equal (@List.length _)) in I. rewrite app_length in I. destruct x; [reflexivity|cbn in I; lia].
Qed.

(** ** The servers *)
Lemma server_ok U t l c k : Forall smooth l -> nth_error (y_conns (y_run U t l)) c = Some k ->
  reading (v_rd (y_server U k)) /\ v_closed (y_server U k) = false /\ v_eof (y_server U k) = false /\ v_exn (y_server U k) = false /\
  tracked (y_server U k) /\ forall j b, nth_error (v_jobs (y_server U k)) j = Some b -> j_state b <> JCancelled.
Proof.
  intros H Hk. destruct (conns_ok U t l H c k Hk) as [A _ _]. destruct (run_cuts U (y_reg k) (y_tr k) (y_steps k)) as (rest & C). fold (y_server U k) in C.
  assert (F : Forall taken_item (v_items (y_server U k))).
  { apply Forall_forall. intros x Hx. apply In_nth_error in Hx as (n & Hx). destruct (unit_is_write U t l c k _ _ n x Hk C Hx) as (w & _ & _ & tk & _ & [(d & rid & q & _ & _ & -> & _)|(rid & _ & _ & ->)]); exact Logic.I. }
  pose proof (reading_run U (y_reg k) (y_tr k) (y_steps k) A F) as R. pose proof (reading_open _ (good_run U (y_reg k) (y_tr k) (y_steps k)) R) as O. destruct (scalm_flags U (y_reg k) (y_tr k) (y_steps k) A) as (E1 & E2).
  destruct (calm_jobs U (y_reg k) (y_tr k) (y_steps k) A O) as (T & N). auto 10.
Qed.

(** ** Frames and the units they answer *)
Lemma response_pkg r id cmd st v p : response r id cmd st v -> from_stream BoltResponse r = Ok p -> p_request_id p = PInt id /\ p_cmdcode p = cmd /\ p_respstatus p = st /\ p_content p = PBytes v.
Proof.
  intros (f & Lay & _ & _ & F1 & F2 & F3 & F4 & _) Hs. change BoltResponse with (resp_class (cls_name BoltResponse)) in Hs. apply from_stream_resp_iff in Hs as (f' & kvs & hb & Lay' & _ & _ & _ & _ & ->).
  assert (f' = f) by (apply resp_layout_iff in Lay as (_ & _ & ->); apply resp_layout_iff in Lay' as (_ & _ & ->); reflexivity). subst f'. cbn. repeat split; congruence.
Qed.
Lemma response_reads r id cmd st v : response r id cmd st v -> exists p, from_stream BoltResponse r = Ok p.
Proof.
  intros (f & Lay & Lc & F1 & F2 & F3 & F4 & F5 & Ls & F6). change BoltResponse with (resp_class (cls_name BoltResponse)).
  eexists. apply from_stream_resp_iff; exists f, [], []; split; [exact Lay|]; split; [exact Lc|]; split; [rewrite F4; exact Ls|]; split; [rewrite F6; constructor|]; split; reflexivity.
Qed.
(** unit n of connection c is what task i wrote *)
Definition unit_at (t : M_AioClient.timer) (y : sys) (i c n : nat) : Prop := exists bs, nth_error (written_on t y c) n = Some (i, (c, bs)).
Lemma same_task U t l i i' tk tk' : NoDup (y_ids l) -> let y := y_run U t l in ctask (y_client t y) i = Some tk -> ctask (y_client t y) i' = Some tk' -> rid_of (creq tk) = rid_of (creq tk') -> i = i'.
Proof.
  intros N y H H' E. pose proof (yi_ids _ _ _ _ (yinv_run U t l) N) as Nd. fold y in Nd. rewrite NoDup_nth_error in Nd.
  assert (G : forall u tku, ctask (y_client t y) u = Some tku -> nth_error (map (fun x => rid_of (fst x)) (specs (y_client t y))) u = Some (rid_of (creq tku))) by (intros u tku Hu; unfold L_System1.specs; rewrite map_map, nth_error_map, Hu; reflexivity).
  apply Nd; [apply nth_error_Some; rewrite (G _ _ H); discriminate|]. rewrite (G _ _ H), (G _ _ H'), E. reflexivity.
Qed.
Lemma seen_unit U t l i tk p : Forall smooth l -> NoDup (y_ids l) -> let y := y_run U t l in ctask (y_client t y) i = Some tk -> L_AioClient.seen (y_client t y) p -> rid_of p = rid_of (creq tk) ->
  exists c k n frame, nth_error (y_conns y) c = Some k /\ In frame (answers n (y_server U k)) /\ from_stream BoltResponse frame = Ok p /\ unit_at t y i c n.
Proof.
  intros H N y Hi (c & lk & frame & Hl & Hf & Hs) E. destruct (frame_from_server U t l c lk frame Hl Hf) as (k & n & Hk & Hn). fold y in Hk. exists c, k, n, frame. split; [exact Hk|]. split; [apply answers_in; exact Hn|]. split; [exact Hs|].
  destruct (server_ok U t l c k H Hk) as (_ & O & _). pose proof (good_run U (y_reg k) (y_tr k) (y_steps k)) as G. fold (y_server U k) in G. destruct (oo_answers _ _ _ (open_out _ G O) n frame Hn) as (x & Nx & An).
  assert (Ex : item_id x = rid_of p).
  { destruct x as [q|id|id st|id]; cbn in An; [destruct An as (st & v & An & _)| | |destruct An]; destruct (response_pkg _ _ _ _ _ _ An Hs) as (A & _); unfold M_AioClient.rid_of; rewrite A; reflexivity. }
  destruct (run_cuts U (y_reg k) (y_tr k) (y_steps k)) as (rest & C). destruct (unit_is_write U t l c k _ _ n x Hk C Nx) as ((j, (c', bs)) & Hw & Un). fold y in Hw, Un. destruct Un as (_ & tk' & Hj & Un). cbn [fst] in Hj.
  assert (Ec : c' = c) by (apply nth_error_In in Hw; apply filter_In in Hw as (_ & Hw); unfold on in Hw; cbn in Hw; apply Nat.eqb_eq in Hw; exact Hw). subst c'.
  assert (Ej : rid_of (creq tk') = item_id x).
  { destruct Un as [(d & rid & q & _ & Er & -> & Q & _)|(rid & _ & Er & ->)]; cbn [fst] in Er; [apply request_id in Er as (Er & _); cbn [item_id]; rewrite Q; exact Er|apply beat_id in Er as (Er & _); exact Er]. }
  assert (i = j) by (apply (same_task U t l i j tk tk' N Hi Hj); congruence). subst j. exists bs. exact Hw.
Qed.
Lemma unit_sent t y i c n : unit_at t y i c n -> exists bs, In (c, bs) (L_AioClient6.sends i (M_AioClient.init t) (y_hist y)).
Proof. intros (bs & H). apply nth_error_In in H. apply filter_In in H as (H & _). apply In_nth_error in H as (p & H). destruct (L_System1.wlog_task _ _ _ _ _ _ H) as (tk & _ & S & _). eauto. Qed.
Lemma no_fails i h : Forall L_Settle1.calm h -> L_AioClient6.fails i h = 0%nat.
Proof.
  unfold L_AioClient6.fails. intros H. induction H as [|o h C _ IH]; [reflexivity|]. cbn [filter]. destruct o; try exact IH; destruct C.
Qed.
Lemma sent_once U t l i tk : Forall smooth l -> let y := y_run U t l in ctask (y_client t y) i = Some tk -> (List.length (L_AioClient6.sends i (M_AioClient.init t) (y_hist y)) + L_AioClient6.fresh_of (cpc tk) <= 1)%nat.
Proof. intros H y Hi. pose proof (L_AioClient6.o_fails _ _ _ _ (L_AioClient6.w_tasks _ _ (L_AioClient6.wr_run t (y_hist y)) i tk Hi)) as F. rewrite (no_fails _ _ (calm_hist U t l H)) in F. exact F. Qed.
Lemma NoDup_one (l : list nat) a b : (List.length l <= 1)%nat -> In a l -> In b l -> a = b.
Proof. destruct l as [|x [|z l]]; cbn; intros L A B; [destruct A| |lia]. destruct A as [<-|[]], B as [<-|[]]. reflexivity. Qed.
Lemma unit_once U t l i c n c' n' : Forall smooth l -> let y := y_run U t l in unit_at t y i c n -> unit_at t y i c' n' -> c = c' /\ n = n'.
Proof.
  intros H y (bs & A) (bs' & B). unfold written_on in A, B. apply L_System1.filter_nth in A as (p & A & _ & La). apply L_System1.filter_nth in B as (p' & B & _ & Lb). set (w := L_System1.wlog (M_AioClient.init t) (y_hist y)) in *.
  assert (p = p').
  { destruct (L_System1.wlog_task _ _ _ _ _ _ A) as (tk & Hi & _). pose proof (sent_once U t l i tk H Hi) as S. cbv zeta in S. fold y in S. rewrite <- L_System1.wlog_sends, map_length in S. fold w in S. rewrite <- L_System1.positions_length in S.
    apply (NoDup_one (L_System1.positions (fun x => Nat.eqb (fst x) i) w)); [lia|eapply L_System1.positions_in; [exact A|apply Nat.eqb_refl]|eapply L_System1.positions_in; [exact B|apply Nat.eqb_refl]]. }
  subst p'. assert (E : c = c') by congruence. split; [exact E|]. subst c'. congruence.
Qed.

(** ** No answer before the request was sent *)
Lemma not_before U t l i tk p : Forall smooth l -> NoDup (y_ids l) -> let s := y_client t (y_run U t l) in ctask s i = Some tk -> L_AioClient6.fresh_of (cpc tk) = 1%nat -> L_AioClient.seen s p -> rid_of p <> rid_of (creq tk).
Proof.
  intros H N s Hi F S E. destruct (seen_unit U t l i tk p H N Hi S E) as (c & k & n & frame & _ & _ & _ & Un). apply unit_sent in Un as (bs & Un). pose proof (sent_once U t l i tk H Hi) as L. cbv zeta in L.
  destruct (L_AioClient6.sends i _ _); [destruct Un|]. cbn in L. lia.
Qed.
Lemma hist_distinct U t l : NoDup (y_ids l) -> L_AioClient2.distinct_ids (M_AioClient.init t) (y_hist (y_run U t l)).
Proof. intros N. apply L_Front.ids_distinct. exact (L_Front.sub_nodup _ _ (L_Front.hist_sub U t l) N). Qed.
Lemma client_step U t l o : smooth o -> let s := y_client t (y_run U t l) in let s' := y_client t (y_run U t (l ++ [o])) in s' = s \/ exists co, L_Settle1.calm co /\ s' = M_AioClient.run_step co s.
Proof.
  intros S s s'. unfold s', y_client. rewrite yrun_snoc. destruct (hist_step U t o (y_run U t l) S) as [->|(co & C & ->)]; [left; reflexivity|]. right. exists co. split; [exact C|]. apply L_Settle1.run_snoc.
Qed.
Lemma client_encodable U t l : Forall smooth l -> L_Settle1.encodable (y_client t (y_run U t l)).
Proof. intros H. apply L_Settle1.dials_encodable. apply L_Settle1.calm_dials. apply calm_hist. exact H. Qed.
Lemma claimed_run U t l : Forall smooth l -> NoDup (y_ids l) -> L_Settle1.claimed (y_client t (y_run U t l)).
Proof.
  induction l as [|o l IH] using rev_ind; intros H N; [intros p (c & k & f & Hk & _); destruct c; discriminate|]. apply Forall_app in H as (H & Ho). apply Forall_inv in Ho. pose proof (nodup_more _ _ N) as N0. specialize (IH H N0).
  destruct (client_step U t l o Ho) as [->|(co & C & ->)]; [exact IH|]. apply L_Settle1.claimed_step; [exact C|exact (L_AioClient.inv_run t _)|apply client_encodable; exact H| |exact IH].
  intros i tk p Hi Hs Sp. refine (not_before U t l i tk p H N0 Hi _ Sp). rewrite Hs. reflexivity.
Qed.
Lemma prompt_less U t l o : prompt U t (l ++ [o]) -> prompt U t l.
Proof. intros P l1 o1 l2 i tk n c E. apply (P l1 o1 (l2 ++ [o])). rewrite E, <- app_assoc. reflexivity. Qed.
Lemma drain2_from co s0 j0 tk m0 c0 : L_Settle1.calm co -> L_AioClient.links_ok s0 -> L_Settle1.encodable s0 -> ctask (M_AioClient.run_step co s0) j0 = Some tk -> cpc tk = M_AioClient.Drain2 m0 c0 ->
  ctask s0 j0 = Some tk \/ exists tk0, co = M_AioClient.DrainOk j0 /\ ctask s0 j0 = Some tk0 /\ cpc tk0 = M_AioClient.Drain1 m0 c0 /\ creq tk0 = creq tk.
Proof.
  intros C LO En Hj0 Ep. pose proof (L_Settle1.step_ceff co s0 C LO En) as X.
  assert (Keep : M_AioClient.s_tasks (M_AioClient.run_step co s0) = M_AioClient.s_tasks s0 -> ctask s0 j0 = Some tk) by (intros Q; rewrite <- Q; exact Hj0).
  assert (Mv : forall j tk0 q, ctask s0 j = Some tk0 -> M_AioClient.s_tasks (M_AioClient.run_step co s0) = L_AioClient.moved j q s0 -> (forall n c, q <> M_AioClient.Drain2 n c) -> ctask s0 j0 = Some tk).
  { intros j tk0 q Hj Q Nq. rewrite Q in Hj0. unfold L_AioClient.moved in Hj0. apply L_AioClient.upd_get in Hj0 as [(_ & Hj0)|(<- & x & _ & ->)]; [exact Hj0|]. exfalso. cbn in Ep. exact (Nq _ _ Ep). }
  L_Settle1.split_ceff X; try (left; auto; fail); try (left; eapply Mv; [exact Ht|exact V4|]; solve [discriminate|intros ? ? ->; assumption]).
  - left. rewrite V4 in Hj0. destruct (Nat.lt_ge_cases j0 (List.length (M_AioClient.s_tasks s0))) as [L|L]; [rewrite nth_error_app1 in Hj0 by exact L; exact Hj0|]. rewrite nth_error_app2 in Hj0 by exact L. apply nth_error_In in Hj0. destruct Hj0 as [<-|[]]. congruence.
  - rewrite V4 in Hj0. unfold L_AioClient.moved in Hj0. apply L_AioClient.upd_get in Hj0 as [(_ & Hj0)|(<- & x & Hx & ->)]; [left; exact Hj0|]. right. assert (x = t) by congruence. subst x. cbn in Ep. injection Ep as <- <-. exists t. auto.
Qed.
(** under [prompt] there is no answer before the request is waited for *)
Lemma not_sending U t l : Forall smooth l -> NoDup (y_ids l) -> prompt U t l -> forall i tk p, let s := y_client t (y_run U t l) in ctask s i = Some tk -> L_AioClient.sending (cpc tk) -> L_AioClient.seen s p -> rid_of p <> rid_of (creq tk).
Proof.
  induction l as [|o l IH] using rev_ind; intros H N P i tk p s Hi Se Sn; [destruct i; discriminate|]. pose proof H as H0. apply Forall_app in H as (H & Ho). apply Forall_inv in Ho. pose proof (nodup_more _ _ N) as N0. specialize (IH H N0 (prompt_less _ _ _ _ P)).
  destruct (cpc tk) as [|m e|m e|m c|m c|ev|r] eqn:Ep; try contradiction; try (refine (not_before U t _ i tk p H0 N Hi _ Sn); rewrite Ep; reflexivity).
  destruct (client_step U t l o Ho) as [E|(co & C & E)]; fold s in E; rewrite E in *; [apply (IH i tk p Hi); [rewrite Ep; exact Logic.I|exact Sn]|]. set (s0 := y_client t (y_run U t l)) in *.
  destruct (drain2_from co s0 i tk m c C (L_AioClient.run_links_ok t _) (client_encodable U t l H) Hi Ep) as [Hi0|(tk0 & -> & Hi0 & Hp0 & Er)].
  - exfalso. pose proof (P l o [] i tk m c eq_refl Hi0 Ep) as Eo. subst o. unfold s, y_client in E. rewrite yrun_snoc in E. cbn [y_step] in E. fold (y_client t (y_client_step (M_AioClient.DrainOk i) (y_run U t l))) in E. rewrite client_snoc in E. fold s0 in E. rewrite <- E in Hi.
    cbn [M_AioClient.run_step] in Hi. rewrite Hi0, Ep in Hi. unfold M_AioClient.sent in Hi.
    assert (Z : forall q s1, M_AioClient.s_tasks s1 = M_AioClient.s_tasks s0 -> ctask (M_AioClient.goto i q s1) i = Some tk -> cpc tk = q).
    { intros q s1 Es K. unfold M_AioClient.goto in K. cbn in K. rewrite Es in K. rewrite (L_Front.upd_here _ _ _ _ Hi0) in K. injection K as K. rewrite <- K. reflexivity. }
    destruct (dget _ _); [destruct (_ =? _)|]; (apply Z in Hi; [congruence|reflexivity]).
  - rewrite <- Er. apply (IH i tk0 p Hi0); [rewrite Hp0; exact Logic.I|]. destruct (L_Settle1.seen_step _ _ p C (client_encodable U t l H) Sn) as [K|(c0 & fr & K & _)]; [exact K|discriminate].
Qed.
Lemma in_time_run U t l : Forall smooth l -> NoDup (y_ids l) -> prompt U t l -> L_Settle1.all_in_time (y_client t (y_run U t l)).
Proof.
  induction l as [|o l IH] using rev_ind; intros H N P; [intros i tk Hi; destruct i; discriminate|]. pose proof (not_sending U t (l ++ [o]) H N P) as Ns. cbv zeta in Ns. apply Forall_app in H as (H & Ho). apply Forall_inv in Ho. pose proof (nodup_more _ _ N) as N0. specialize (IH H N0 (prompt_less _ _ _ _ P)).
  destruct (L_AioClient2.inv_all_run t _ (hist_distinct U t l N0)) as (I1 & I2 & I3).
  destruct (client_step U t l o Ho) as [E|(co & C & E)]; cbv zeta in E; rewrite E in *; [exact IH|]. apply L_Settle1.in_time_step; try assumption. apply client_encodable. exact H.
Qed.
Lemma fetched_run U t l : Forall smooth l -> NoDup (y_ids l) -> L_Settle1.all_fetched (y_client t (y_run U t l)).
Proof.
  induction l as [|o l IH] using rev_ind; intros H N; [intros i tk Hi; destruct i; discriminate|]. apply Forall_app in H as (H & Ho). apply Forall_inv in Ho. pose proof (nodup_more _ _ N) as N0. specialize (IH H N0).
  destruct (L_AioClient2.inv_all_run t _ (hist_distinct U t l N0)) as (I1 & I2 & I3).
  destruct (client_step U t l o Ho) as [E|(co & C & E)]; cbv zeta in E; rewrite E in *; [exact IH|]. apply L_Settle1.fetched_step; try assumption. apply client_encodable. exact H.
Qed.

(** ** The unit a call becomes *)
Lemma call_unit_more d rid p bs : y_request d rid = Ok p -> to_stream p = Ok bs -> exists q h, one bs (IRequest q) /\ q_id q = rid /\ q_body q = y_content d /\ q_type q = y_ptype d /\ q_header q = h /\ names_of d h /\
  build_header (y_baggage d) (y_interface d) (y_method d) (y_app d) (y_uid d) (y_extra d) = Ok h /\ p_ptype p = y_ptype d.
Proof.
  intros Er T. unfold y_request in Er. apply bind_Ok in Er as (h & Bh & N). destruct (build_names _ _ _ _ _ _ _ Bh) as (Wh & G).
  unfold new_request in N. apply mk_package_Ok in N as (M1 & M2 & M3 & M4 & M5 & M6 & M7 & M8 & M9 & M10 & M11 & L).
  rewrite BoltRequest_eq in M1. destruct (req_layout_of p _ bs M1 L T) as (r & tm & ct & A & B & C & Lay).
  rewrite M4 in A. cbn [int_value] in *. injection A as <-. rewrite M3 in C. injection C as <-. injection M7 as M7. injection M8 as M8.
  pose proof L as (_ & _ & _ & _ & _ & _ & L7). rewrite M2 in L7. assert (Q : dict_of h = h) by (apply dict_of_id; exact Wh).
  exists (as_request (frame_of p rid tm (y_content d)) h), h. cbn [as_request q_id q_body q_header q_type frame_of fr_request_id fr_content fr_type]. rewrite Q. split; [|auto 10].
  apply One_request; [exact Lay| | | |].
  - apply to_bytes_strings in L7. exact L7.
  - cbn [frame_of fr_cmdcode]. rewrite <- M8. discriminate.
  - cbn [frame_of fr_cmdcode]. rewrite <- M8. discriminate.
  - cbn [frame_of fr_class]. rewrite M1. reflexivity.
Qed.
Lemma task_of_call U t l d rid a p : In (YCall d rid a) l -> y_request d rid = Ok p -> exists i tk, ctask (y_client t (y_run U t l)) i = Some tk /\ creq tk = p /\ M_AioClient.t_addr tk = a.
Proof.
  intros H E. apply in_split in H as (l1 & l2 & ->). destruct (L_Front.new_task U t l1 d rid a p E) as (tk & Hk & Er & Ea). destruct (L_Front.task_grows U t (l1 ++ [YCall d rid a]) l2 _ _ Hk) as (tk' & Hk' & R & A & _).
  rewrite <- app_assoc in Hk'. cbn [app] in Hk'. exists (List.length (M_AioClient.s_tasks (y_client t (y_run U t l1)))), tk'. split; [exact Hk'|]. split; congruence.
Qed.
Lemma unit_of_send t y i c bs : In (c, bs) (L_AioClient6.sends i (M_AioClient.init t) (y_hist y)) -> exists n, nth_error (written_on t y c) n = Some (i, (c, bs)).
Proof.
  rewrite <- L_System1.wlog_sends. intros H. apply in_map_iff in H as ((j, x) & E & H). cbn [snd] in E. subst x. apply filter_In in H as (H & Ej). cbn [fst] in Ej. apply Nat.eqb_eq in Ej. subst j.
  apply In_nth_error. unfold written_on. apply filter_In. split; [exact H|]. unfold on. cbn. apply Nat.eqb_refl.
Qed.
Lemma Forall2_nth_l {A B} (R : A -> B -> Prop) a b n x : Forall2 R a b -> nth_error a n = Some x -> exists y, nth_error b n = Some y /\ R x y.
Proof. intros F. revert n. induction F as [|u z a b H F IH]; intros [|n] E; try discriminate; [injection E as <-; exists z; auto|exact (IH n E)]. Qed.

(** ** C85 *)
Record settled_call (U : tables) (t : M_AioClient.timer) (y : sys) (d : ycall) (rid : Z) (i : nat) (tk : M_AioClient.task) (c : nat) (k : yconn) (n : nat) (q : request) (r : res pyobj) : Prop := {
  sc_task : ctask (y_client t y) i = Some tk;
  sc_conn : nth_error (y_conns y) c = Some k;
  sc_unit : unit_at t y i c n;
  sc_id : q_id q = rid /\ rid_of (creq tk) = rid /\ p_request_id (creq tk) = PInt rid /\ id_ok rid;
  sc_call : In (n, y_interface d, y_method d, y_content d) (calls_on U k);
  sc_end : ended_with (y_server U k) n r;
  sc_answer : (exists bs, concluded q r (TDrain1 bs) /\ answers n (y_server U k) = [bs] /\ exists p, from_stream BoltResponse bs = Ok p /\ L_AioClient.seen (y_client t y) p) \/ (concluded q r TDone /\ answers n (y_server U k) = []);
  sc_done : (exists o, cpc tk = M_AioClient.Done o /\ o <> M_AioClient.RetNone) \/ (exists ev, cpc tk = M_AioClient.WaitResp ev /\ nth_error (M_AioClient.s_events (y_client t y)) ev = Some false) }.
Lemma call_settles U t l d rid a p : Forall smooth l -> NoDup (y_ids l) -> let y := y_run U t l in settled U t y -> In (YCall d rid (Ok a)) l -> y_request d rid = Ok p -> y_ptype d <> 2 -> served_at t d a y -> clear_trace U d ->
  exists i tk c k n q r, settled_call U t y d rid i tk c k n q r /\ M_AioClient.t_addr tk = Ok a /\ exists lk, nth_error (M_AioClient.s_links (y_client t y)) c = Some lk /\ M_AioClient.k_addr lk = a.
Proof.
  intros Sm N y St Hd Er Nw Sv Cl. destruct (task_of_call U t l d rid (Ok a) p Hd Er) as (i & tk & Hi & Rq & Ad). fold y in Hi. pose proof (calm_hist U t l Sm) as Ca. fold y in Ca. pose proof (settled_idle U t y St) as Id.
  destruct (request_id d rid p Er) as (Ri & Pi). destruct (client_encodable U t l Sm i tk Hi) as (bs & Tb). rewrite Rq in Tb. destruct (call_unit_more d rid p bs Er Tb) as (q & h & On & Qi & Qb & Qt & Qh & Nm & Bh & Pt).
  assert (Do : (exists o, cpc tk = M_AioClient.Done o /\ o <> M_AioClient.RetNone) \/ (exists ev, cpc tk = M_AioClient.WaitResp ev /\ nth_error (M_AioClient.s_events (y_client t y)) ev = Some false)).
  { destruct (L_Settle1.idle_tasks t _ Ca Id i tk Hi) as [(o & Ho)|Ho]; [left; exists o|right; exact Ho]. split; [exact Ho|]. intros ->. pose proof (L_Settle1.ends_run t _ Ca i tk Hi) as E. rewrite Ho, Rq, Pt in E. exact (Nw E). }
  assert (Se : exists c bs', In (c, bs') (L_AioClient6.sends i (M_AioClient.init t) (y_hist y))).
  { pose proof (L_AioClient6.o_past _ _ _ _ (L_AioClient6.w_tasks _ _ (L_AioClient6.wr_run t (y_hist y)) i tk Hi)) as P.
    assert (Z : L_AioClient6.past (cpc tk) -> exists c bs', In (c, bs') (L_AioClient6.sends i (M_AioClient.init t) (y_hist y))) by (intros K; specialize (P K); destruct (L_AioClient6.sends i _ _) as [|(c, b) z]; [congruence|exists c, b; left; reflexivity]).
    destruct Do as [(o & Ho & No)|(ev & Ho & _)]; [|apply Z; rewrite Ho; exact Logic.I]. destruct o as [|p1|e]; [congruence|apply Z; rewrite Ho; exact Logic.I|].
    pose proof (fetched_run U t l Sm N i tk Hi) as F. unfold L_Settle1.fetched in F. rewrite Ho in F. destruct F as [F|(p1 & F & E)]; [congruence|].
    destruct (seen_unit U t l i tk p1 Sm N Hi F E) as (c & k & n & fr & _ & _ & _ & Un). apply unit_sent in Un as (b & Un). eauto. }
  destruct Se as (c & bs' & Se). destruct (L_AioClient6.o_sent _ _ _ _ (L_AioClient6.w_tasks _ _ (L_AioClient6.wr_run t (y_hist y)) i tk Hi) c bs' Se) as (Tb' & a' & Ea & La). rewrite Rq in Tb'. assert (bs' = bs) by congruence. subst bs'. assert (a' = a) by congruence. subst a'.
  destruct (L_AioClient6.addr_link _ _ _ La) as (lk & Hl & Kl). fold (y_client t y) in Hl. destruct (unit_of_send t y i c bs Se) as (n & Hw).
  destruct (nth_error (y_conns y) c) as [k|] eqn:Hk; [|exfalso; apply nth_error_None in Hk; pose proof (yi_conns _ _ _ _ (yinv_run U t l)) as Y; fold y in Y; rewrite Y, <- links_ins in Hk; apply nth_error_None in Hk; congruence].
  destruct (server_ok U t l c k Sm Hk) as (Rd & Op & Fe & Fx & Tr & Nc). pose proof (good_run U (y_reg k) (y_tr k) (y_steps k)) as G. fold (y_server U k) in G. pose proof (settled_server U t y c k St Hk) as Si.
  assert (W : waiting (y_server U k)) by (split; [exact Rd|]; split; [exact Fe|]; split; [exact Fx|]; exact (Si Read Logic.I)).
  destruct (stream_units l (y_client t y) (written_on t y c)) as (all & F & C); [intros w Hx; apply filter_In in Hx as (Hx & _); exact (writes_are_units U t l w Hx)|].
  pose proof (settled_up U t l c k St Hk) as Gt. fold y in Gt. rewrite sent_written in Gt. rewrite <- Gt in C. change (y_got k) with (fed (y_steps k)) in C.
  destruct (Forall2_nth_l _ _ _ n _ F Hw) as (x & Nx & (On' & _)). cbn [snd] in On'. destruct (one_fun _ _ [] [] _ _ On On' eq_refl) as (_ & _ & <-).
  pose proof (waiting_item U (y_reg k) (y_tr k) (y_steps k) all [] n _ W C Nx) as Ni. fold (y_server U k) in Ni. destruct (answering_exists _ n _ G Ni) as (K & _). destruct (K q eq_refl) as (u & pp & An). clear K.
  destruct Sv as (Si0 & Sm0 & Sd). destruct (Sd c k lk Hk Hl Kl) as (Sd0 & Sr). assert (Nst : pp <> TStart) by (destruct (sidle_tasks U _ G Nc Si u n _ _ An) as [->|(e & ->)]; discriminate).
  pose proof Nm as (N1 & N2 & N3). assert (Ex : In n (map j_frame (v_jobs (y_server U k)))).
  { apply (executed_any U (y_reg k) (y_tr k) (y_steps k) u n q pp (y_interface d) (y_method d)); try assumption.
    - rewrite Qh. split; [exact Si0|left; exact N1].
    - rewrite Qh. split; [exact Sm0|exact N3].
    - rewrite Qh. exact (Cl h Bh). }
  apply in_map_iff in Ex as (b & Eb & Hb). apply In_nth_error in Hb as (j & Hj). destruct (sidle_jobs U _ Nc Si j b Hj) as (r & Hr).
  exists i, tk, c, k, n, q, r. split; [|split; [exact Ad|exists lk; auto]]. constructor; try assumption.
  - exists bs. exact Hw.
  - rewrite Rq. pose proof (answering_id _ _ _ _ _ G An) as Ok'. rewrite Qi in Ok'. auto.
  - destruct G as ((_ & _ & Jo) & _). destruct (jo_named _ Jo j b Hj) as (q' & Nq & A & B & D). rewrite Eb in Nq. assert (q' = q) by congruence. subst q'. rewrite Qh in A, B.
    rewrite <- (names_interface d h _ Nm A), <- (names_the_method d h _ Nm B), <- Qb, <- D, <- Eb.
    destruct (started_executed U (y_steps k) (sinit (y_reg k) (y_tr k)) j b (good_init _ _) Hj (or_intror (ex_intro _ _ Hr))) as [E|(z & Nz & _)]; [exact E|destruct j; discriminate].
  - exists b. split; [eapply nth_error_In; exact Hj|auto].
  - rewrite <- Eb in Ni. destruct (sidle_answer U _ j b r q G Tr Nc Si Hj Hr Ni) as [(fr & Co & Af)|R]; [congruence| |right; rewrite <- Eb; exact R].
    left. exists fr. split; [exact Co|]. rewrite <- Eb. split; [exact Af|]. assert (Hv : In (n, fr) (v_out (y_server U k))) by (apply answers_in; rewrite <- Eb, Af; left; reflexivity).
    destruct (outs_response U _ _ _ _ _ Hv) as (id & cmd & st & ct & Re). destruct (response_reads _ _ _ _ _ Re) as (p1 & Hp1). exists p1. split; [exact Hp1|].
    pose proof (settled_down U t l c k lk St Hk Hl) as Dn. destruct (L_Settle1.idle_frames t (y_hist y) c lk (map snd (v_out (y_server U k))) [] Ca Id Hl) as (more & Fm); [rewrite app_nil_r; exact Dn|apply outs_frames|].
    exists c, lk, fr. split; [exact Hl|]. split; [|exact Hp1]. rewrite Fm. apply in_or_app. left. apply in_map_iff. exists (n, fr). auto.
Qed.
Lemma gives_task U t l i tk rid x : NoDup (y_ids l) -> let s := y_client t (y_run U t l) in ctask s i = Some tk -> rid_of (creq tk) = rid -> gives s rid x -> exists o, cpc tk = M_AioClient.Done o /\ M_AioClient.caller_sees o = x.
Proof.
  intros N s Hi Er (j & tk' & o & Hj & Hr & Ho & Hx). assert (i = j). { apply (same_task U t l i j tk tk' N Hi Hj). rewrite Er. unfold M_AioClient.rid_of. rewrite Hr. reflexivity. }
  subst j. assert (tk' = tk) by congruence. subst tk'. eauto.
Qed.
Lemma settled_outcome U t l d rid i tk c k n q r : Forall smooth l -> NoDup (y_ids l) -> let y := y_run U t l in settled_call U t y d rid i tk c k n q r -> forall a, M_AioClient.t_addr tk = Ok a ->
  let s := y_client t y in
  match r with
  | Raise _ => gives s rid (Raise KeyError)
  | Ok v => (sendable v -> gives s rid (Ok v) \/ (gives s rid (Raise KeyError) /\ ~ prompt U t l)) /\ (~ sendable v -> forall x, ~ gives s rid x)
  end.
Proof.
  intros Sm N y [Hi Hk Un (Qi & Ri & Pi & Iok) _ _ An Do] a Ad s.
  pose proof (calm_hist U t l Sm) as Ca. fold y in Ca.
  (* every frame received for this call is the answer *)
  assert (Only : forall p, L_AioClient.seen s p -> rid_of p = rid -> exists fr, In fr (answers n (y_server U k)) /\ from_stream BoltResponse fr = Ok p).
  { intros p S E. destruct (seen_unit U t l i tk p Sm N Hi S) as (c' & k' & n' & fr & Hk' & Hf & Hs & Un'); [congruence|]. fold y in Hk', Un'. destruct (unit_once U t l i c n c' n' Sm Un Un') as (<- & <-). fold y in Hk'. assert (k' = k) by congruence. subst k'. eauto. }
  assert (Dn : forall p, L_AioClient.seen s p -> rid_of p = rid -> exists o, cpc tk = M_AioClient.Done o /\ o <> M_AioClient.RetNone).
  { intros p S E. destruct Do as [Do|(ev & Ho & He)]; [exact Do|]. exfalso. destruct (L_AioClient2.inv_all_run t _ (hist_distinct U t l N)) as (_ & _ & Lv). pose proof (L_AioClient2.l_wait _ Lv i tk ev Hi Ho He) as W.
    pose proof (claimed_run U t l Sm N p S) as Cm. rewrite E in Cm. fold y in W. fold (y_client t y) in W. rewrite Ri in W. unfold s in Cm. fold y in Cm. congruence. }
  assert (Ke : forall e, cpc tk = M_AioClient.Done (M_AioClient.RetErr e) -> e = KeyError) by (intros e Ho; pose proof (L_Settle1.ends_run t _ Ca i tk Hi) as E; rewrite Ho in E; destruct E as [E|E]; [exact E|congruence]).
  assert (Give : forall o x, cpc tk = M_AioClient.Done o -> M_AioClient.caller_sees o = x -> gives s rid x) by (intros o x Ho Hx; exists i, tk, o; auto).
  assert (Pk : forall p, cpc tk = M_AioClient.Done (M_AioClient.RetPkg p) -> L_AioClient.seen s p /\ rid_of p = rid /\ L_AioClient.success p).
  { intros p Ho. destruct (L_AioClient.i_done _ (L_AioClient.inv_run t (y_hist y)) i tk p Hi Ho) as (A & B & C). split; [exact C|]. split; [congruence|exact B]. }
  assert (Sil : answers n (y_server U k) = [] -> forall x, ~ gives s rid x).
  { intros E x Gx. destruct (gives_task U t l i tk rid x N Hi Ri Gx) as (o & Ho & _). destruct Do as [(o' & Ho' & No)|(ev & Hev & _)]; [|congruence]. assert (o' = o) by congruence. subst o'. destruct o as [|p|e]; [congruence| |].
    - destruct (Pk p Ho) as (S & R & _). destruct (Only p S R) as (fr & Hf & _). rewrite E in Hf. destruct Hf.
    - pose proof (fetched_run U t l Sm N i tk Hi) as F. unfold L_Settle1.fetched in F. rewrite Ho in F. destruct F as [F|(p & S & R)]; [congruence|]. rewrite Ri in R. destruct (Only p S R) as (fr & Hf & _). rewrite E in Hf. destruct Hf. }
  destruct r as [v|e].
  - destruct An as [(bs & Co & Af & p & Hp & Sp)|(Co & Af)]; cbn in Co.
    + destruct (truthy v) eqn:Tv; [|discriminate Co]. destruct Co as [(ct & bs' & -> & Rb & Eb)|(_ & Eb)]; [|discriminate Eb]. injection Eb as <-. rewrite Qi in Rb. destruct (result_bytes_inv _ _ _ Rb) as (ct' & Ec & Lc & Re). injection Ec as <-.
      assert (Sd : sendable (PBytes ct)) by (exists ct; split; [reflexivity|]; split; [intros ->; discriminate Tv|exact Lc]). split; [intros _|intros K; destruct (K Sd)].
      destruct (response_pkg _ _ _ _ _ _ Re Hp) as (A1 & A2 & A3 & A4). assert (Rp : rid_of p = rid) by (unfold M_AioClient.rid_of; rewrite A1; reflexivity).
      assert (Same : forall p', L_AioClient.seen s p' -> rid_of p' = rid -> p' = p) by (intros p' S' R'; destruct (Only p' S' R') as (fr & Hf & Hs); rewrite Af in Hf; destruct Hf as [<-|[]]; congruence).
      destruct (Dn p Sp Rp) as (o & Ho & No). destruct o as [|p'|e]; [congruence| |].
      * left. destruct (Pk p' Ho) as (S' & R' & _). rewrite (Same p' S' R') in Ho. eapply Give; [exact Ho|]. cbn. rewrite A4. reflexivity.
      * right. split; [eapply Give; [exact Ho|]; cbn; rewrite (Ke e Ho); reflexivity|]. intros P. pose proof (in_time_run U t l Sm N P i tk Hi) as It. unfold L_Settle1.in_time in It. rewrite Ho in It. destruct It as [It|(p' & S' & R' & Ns)]; [congruence|].
        apply Ns. rewrite (Same p' S') by congruence. split; [exact A2|exact A3].
    + assert (Ns : ~ sendable v).
      { intros (ct & -> & Nn & Lc). destruct (result_bytes_Ok ct rid Iok Lc) as (bs & Rb & _). destruct (truthy (PBytes ct)) eqn:Tv; [|destruct ct; [congruence|discriminate]]. destruct Co as [(? & ? & _ & _ & K)|(K & _)]; [discriminate|]. rewrite Qi in K. exact (K bs Rb). }
      split; [intros K; destruct (Ns K)|]. intros _. exact (Sil Af).
  - destruct An as [(bs & Co & Af & p & Hp & Sp)|(Co & _)]; cbn in Co; destruct Co as (bs' & Fb & Eb); [|discriminate]. injection Eb as <-. rewrite Qi in Fb. apply fail_bytes_inv in Fb.
    destruct (response_pkg _ _ _ _ _ _ Fb Hp) as (A1 & A2 & A3 & A4). assert (Rp : rid_of p = rid) by (unfold M_AioClient.rid_of; rewrite A1; reflexivity).
    destruct (Dn p Sp Rp) as (o & Ho & No). destruct o as [|p'|e']; [congruence| |eapply Give; [exact Ho|]; cbn; rewrite (Ke e' Ho); reflexivity].
    exfalso. destruct (Pk p' Ho) as (S' & R' & (_ & B)). destruct (Only p' S' R') as (fr & Hf & Hs). rewrite Af in Hf. destruct Hf as [<-|[]]. assert (p' = p) by congruence. subst p'. rewrite A3 in B. destruct e; discriminate.
Qed.
Lemma outcome U t l d rid a p : Forall smooth l -> NoDup (y_ids l) -> let y := y_run U t l in settled U t y -> In (YCall d rid (Ok a)) l -> y_request d rid = Ok p -> y_ptype d <> 2 -> served_at t d a y -> clear_trace U d ->
  exists c k lk n r, nth_error (y_conns y) c = Some k /\ nth_error (M_AioClient.s_links (y_client t y)) c = Some lk /\ M_AioClient.k_addr lk = a /\
    In (n, y_interface d, y_method d, y_content d) (calls_on U k) /\ ended_with (y_server U k) n r /\
    (passed_on (y_client t y) rid r \/ (~ prompt U t l /\ (exists v, r = Ok v /\ sendable v) /\ gives (y_client t y) rid (Raise KeyError))).
Proof.
  intros Sm N y St Hd Er Nw Sv Cl. destruct (call_settles U t l d rid a p Sm N St Hd Er Nw Sv Cl) as (i & tk & c & k & n & q & r & S & Ad & lk & Hl & Kl). fold y in S, Hl.
  exists c, k, lk, n, r. split; [exact (sc_conn _ _ _ _ _ _ _ _ _ _ _ _ S)|]. split; [exact Hl|]. split; [exact Kl|]. split; [exact (sc_call _ _ _ _ _ _ _ _ _ _ _ _ S)|]. split; [exact (sc_end _ _ _ _ _ _ _ _ _ _ _ _ S)|].
  pose proof (settled_outcome U t l d rid i tk c k n q r Sm N S a Ad) as O. cbv zeta in O. fold y in O. destruct r as [v|e]; [|left; exact O]. destruct O as (O1 & O2). pose proof (sc_answer _ _ _ _ _ _ _ _ _ _ _ _ S) as An.
  assert (D : sendable v \/ ~ sendable v).
  { destruct v as [| | | | |ct|]; try (right; intros (x & E & _); discriminate). destruct ct as [|b ct]; [right; intros (x & E & Nn & _); congruence|]. destruct (Z.le_gt_cases (len (b :: ct)) 4294967295) as [L|L]; [left; exists (b :: ct); split; [reflexivity|]; split; [discriminate|exact L]|].
    right. intros (x & E & _ & Lx). injection E as <-. lia. }
  destruct D as [D|D].
  - destruct (O1 D) as [K|(K & P)]; [left; split; [intros _; exact K|intros Q; destruct (Q D)]|right; eauto 10].
  - left. split; [intros Q; destruct (D Q)|intros _; exact (O2 D)].
Qed.

(** ** For examples *)
Definition rest_task (s : M_AioClient.st) (tk : M_AioClient.task) : Prop :=
  match cpc tk with M_AioClient.Done _ => True | M_AioClient.WaitResp ev => nth_error (M_AioClient.s_events s) ev = Some false | _ => False end.
Definition rest_server (s : sst) : Prop := (v_rd s = RFixed /\ v_buf s = [] /\ v_eof s = false /\ v_exn s = false) /\ Forall (fun x => match a_pc x with TDone | TRaised _ => True | _ => False end) (v_tasks s) /\ Forall (fun b => match j_state b with JEnded _ => True | _ => False end) (v_jobs s).
Definition rest_link (k : M_AioClient.link) : Prop := M_AioClient.k_rd k = M_AioClient.RdHead /\ M_AioClient.k_buf k = [] /\ M_AioClient.k_cancel k = false /\ M_AioClient.k_exn k = false /\ M_AioClient.k_eof k = false.
Definition rest (U : tables) (t : M_AioClient.timer) (y : sys) : Prop :=
  Forall (rest_task (y_client t y)) (M_AioClient.s_tasks (y_client t y)) /\ Forall rest_link (M_AioClient.s_links (y_client t y)) /\
  Forall rest_server (map (y_server U) (y_conns y)) /\ map y_got (y_conns y) = map (y_sent (y_client t y)) (seq 0 (List.length (y_conns y))) /\
  map M_AioClient.k_in (M_AioClient.s_links (y_client t y)) = map (fun k => y_replied (y_server U k)) (y_conns y).
Lemma upd_same {A} (f : A -> A) x l : nth_error l x = None \/ (exists a, nth_error l x = Some a /\ f a = a) -> upd x f l = l.
Proof. revert x. induction l as [|a l IH]; intros x H; [destruct x; reflexivity|]. destruct x as [|x]; cbn in *; [destruct H as [H|(b & E & F)]; congruence|]. f_equal. exact (IH x H). Qed.
Lemma rest_step U s o : rest_server s -> schores o -> srun_step U o s = s.
Proof.
  intros ((R1 & R2 & R3 & R4) & C & D) R. rewrite Forall_forall in C, D. destruct o as [| | | | |[]|i f|i []|j|j r|i|]; cbn in R; try contradiction; cbn [srun_step].
  - unfold sread, ready, starved. rewrite R1, R2, R3, R4. destruct (v_exn s); reflexivity.
  - unfold sdrain. rewrite R1. reflexivity.
  - destruct (nth_error (v_tasks s) i) as [x|] eqn:E; [|reflexivity]. pose proof (C x (nth_error_In _ _ E)) as K. destruct (a_pc x); try contradiction; reflexivity.
  - destruct (nth_error (v_tasks s) i) as [x|] eqn:E; [|reflexivity]. pose proof (C x (nth_error_In _ _ E)) as K. destruct (a_pc x); try contradiction; reflexivity.
  - destruct (nth_error (v_jobs s) j) as [x|] eqn:E; [|reflexivity]. pose proof (D x (nth_error_In _ _ E)) as K. destruct (j_state x); try contradiction; reflexivity.
  - destruct (nth_error (v_jobs s) j) as [x|] eqn:E; [|reflexivity]. pose proof (D x (nth_error_In _ _ E)) as K. destruct (j_state x); try contradiction; reflexivity.
  - destruct (nth_error (v_tasks s) i) as [x|] eqn:E; [|reflexivity]. pose proof (C x (nth_error_In _ _ E)) as K. destruct (a_pc x); try contradiction; reflexivity.
Qed.
Lemma rest_settled U t y : rest U t y -> settled U t y.
Proof.
  intros (A & B & C & D & E) o R. rewrite Forall_forall in A, B, C.
  assert (Cl : forall o, M_AioClient.run_step o (y_client t y) = y_client t y -> y_client t (y_client_step o y) = y_client t y /\ map (y_server U) (y_conns (y_client_step o y)) = map (y_server U) (y_conns y)) by (intros x H; rewrite client_snoc; auto).
  assert (Sv : forall c x, (forall k, nth_error (y_conns y) c = Some k -> srun_step U x (y_server U k) = y_server U k) -> y_client t (y_server_step c x y) = y_client t y /\ map (y_server U) (y_conns (y_server_step c x y)) = map (y_server U) (y_conns y)).
  { intros c x H. split; [reflexivity|]. cbn [y_server_step y_conns]. rewrite (L_System1.map_upd_comm (y_server U) _ (srun_step U x)) by (intros k; apply server_snoc). apply upd_same. rewrite nth_error_map. destruct (nth_error (y_conns y) c) as [k|] eqn:Hk; [right; exists (y_server U k); split; [reflexivity|exact (H k eq_refl)]|left; reflexivity]. }
  assert (Ts : forall i tk, ctask (y_client t y) i = Some tk -> rest_task (y_client t y) tk) by (intros i tk H; apply A; eapply nth_error_In; exact H).
  destruct o as [d rid a|i reg tr|o|c o|c n|c n]; cbn in R; try contradiction; cbn [y_step].
  - cbv zeta. rewrite client_snoc. assert (H : M_AioClient.run_step (M_AioClient.DialOk i) (y_client t y) = y_client t y).
    { cbn [M_AioClient.run_step]. destruct (ctask (y_client t y) i) as [tk|] eqn:Hi; [|reflexivity]. pose proof (Ts i tk Hi) as T. unfold rest_task in T. destruct (cpc tk); try contradiction; reflexivity. }
    rewrite H, Nat.ltb_irrefl. auto.
  - destruct o as [r ad|i|i|i|i|i|i|i|i|c bs|c|c|c|rid|]; try contradiction; apply Cl; cbn [M_AioClient.run_step]; try (destruct (ctask (y_client t y) i) as [tk|] eqn:Hi; [|reflexivity]; pose proof (Ts i tk Hi) as T; unfold rest_task in T; destruct (cpc tk); try contradiction; try reflexivity; rewrite ?T; reflexivity).
    unfold M_AioClient.read. destruct (nth_error (M_AioClient.s_links (y_client t y)) c) as [k|] eqn:L; [|reflexivity]. destruct (B k (nth_error_In _ _ L)) as (R1 & R2 & R3 & R4 & R5). rewrite R1, R2, R3, R4, R5. reflexivity.
  - assert (Ch : schores o) by (destruct o as [| | | | |[]| |? []| | | |]; cbn in R |- *; exact R). assert (W : match o with Feed _ => y | _ => y_server_step c o y end = y_server_step c o y) by (destruct o; try reflexivity; destruct Ch). rewrite W. apply Sv.
    intros k Hk. apply rest_step; [apply C; apply in_map; eapply nth_error_In; exact Hk|exact Ch].
  - destruct (nth_error (y_conns y) c) as [k|] eqn:Hk; [|auto]. apply Sv. intros k' Hk'. assert (k' = k) by congruence. subst k'.
    assert (G : y_got k = y_sent (y_client t y) c).
    { apply (f_equal (fun m => nth_error m c)) in D. rewrite !nth_error_map, Hk in D. assert (Hs : nth_error (seq 0 (List.length (y_conns y))) c = Some c). { assert (L : (c < List.length (y_conns y))%nat) by (apply nth_error_Some; congruence). rewrite (nth_error_nth' _ 0%nat) by (rewrite seq_length; exact L). rewrite seq_nth by exact L. reflexivity. }
      rewrite Hs in D. cbn in D. congruence. }
    rewrite <- G, skipn_all, firstn_nil. cbn [srun_step]. unfold set_stream. rewrite !app_nil_r. destruct (y_server U k). reflexivity.
  - destruct (nth_error (y_conns y) c) as [k|] eqn:Hk; [|auto]. destruct (nth_error (M_AioClient.s_links (y_client t y)) c) as [lk|] eqn:Hl; [|auto]. apply Cl.
    assert (G : M_AioClient.k_in lk = y_replied (y_server U k)) by (apply (f_equal (fun m => nth_error m c)) in E; rewrite !nth_error_map, Hk, Hl in E; cbn in E; congruence).
    rewrite <- G, skipn_all, firstn_nil. cbn [M_AioClient.run_step]. unfold M_AioClient.on_link. rewrite upd_same; [destruct (y_client t y); reflexivity|]. right. exists lk. split; [exact Hl|]. rewrite !app_nil_r. destruct lk. reflexivity.
Qed.
Definition flushing (s : M_AioClient.st) : list nat := filter (fun i => match ctask s i with Some tk => match cpc tk with M_AioClient.Drain2 _ _ => true | _ => false end | None => false end) (seq 0 (List.length (M_AioClient.s_tasks s))).
Fixpoint prompt_from (U : tables) (t : M_AioClient.timer) (y : sys) (l : list ystep) : Prop :=
  match l with
  | [] => True
  | o :: r => Forall (fun i => o = YClient (M_AioClient.DrainOk i)) (flushing (y_client t y)) /\ prompt_from U t (y_step U t o y) r
  end.
Lemma prompt_intro U t l : prompt_from U t y_init l -> prompt U t l.
Proof.
  intros P l1 o l2 i tk n c -> Hi Hp. unfold y_run in Hi. revert P Hi. generalize y_init as y. induction l1 as [|x l1 IH]; intros y P Hi.
  - cbn in P, Hi. destruct P as (P & _). rewrite Forall_forall in P. apply P. apply filter_In. split; [apply in_seq; split; [lia|]; cbn; apply nth_error_Some; congruence|]. rewrite Hi, Hp. reflexivity.
  - cbn in P, Hi. destruct P as (_ & P). exact (IH _ P Hi).
Qed.
Lemma smooth_call d rid a : match y_request d rid with Ok p => match to_stream p with Ok _ => True | Raise _ => False end | Raise _ => True end -> smooth (YCall d rid a).
Proof. cbn [smooth]. intros H p E. rewrite E in H. destruct (to_stream p) as [bs|]; [eauto|destruct H]. Qed.
Lemma request_intro d rid : match y_request d rid with Ok p => True | Raise _ => False end -> exists p, y_request d rid = Ok p.
Proof. destruct (y_request d rid); [eauto|intros []]. Qed.
Lemma clear_intro U d : match build_header (y_baggage d) (y_interface d) (y_method d) (y_app d) (y_uid d) (y_extra d) with Ok h => match snd (extract U t_init h []) with Ok _ => True | Raise _ => False end | Raise _ => True end -> clear_trace U d.
Proof. intros H h E. rewrite E in H. destruct (snd (extract U t_init h [])) as [c|]; [eauto|destruct H]. Qed.
Lemma ended_intro s j n r : match nth_error (v_jobs s) j with Some b => j_frame b = n /\ j_state b = JEnded r | None => False end -> ended_with s n r.
Proof. destruct (nth_error (v_jobs s) j) as [b|] eqn:E; [|intros []]. intros H. exists b. split; [eapply nth_error_In; exact E|exact H]. Qed.
Lemma ended_all (l : list sst) n r : match l with [s] => match nth_error (v_jobs s) 0 with Some b => j_frame b = n /\ j_state b = JEnded r | None => False end | _ => False end -> Forall (fun s => ended_with s n r) l.
Proof. destruct l as [|s [|]]; try contradiction. intros H. constructor; [apply (ended_intro s 0); exact H|constructor]. Qed.
Lemma outcome_any U t l d rid a : Forall smooth l -> NoDup (y_ids l) -> let y := y_run U t l in settled U t y -> In (YCall d rid (Ok a)) l -> (exists p, y_request d rid = Ok p) -> y_ptype d <> 2 -> served_at t d a y -> clear_trace U d ->
  exists c k lk n r, nth_error (y_conns y) c = Some k /\ nth_error (M_AioClient.s_links (y_client t y)) c = Some lk /\ M_AioClient.k_addr lk = a /\
    In (n, y_interface d, y_method d, y_content d) (calls_on U k) /\ ended_with (y_server U k) n r /\
    (passed_on (y_client t y) rid r \/ ((exists v, r = Ok v /\ sendable v) /\ gives (y_client t y) rid (Raise KeyError))).
Proof.
  intros Sm N y St Hd (p & Er) Nw Sv Cl. destruct (outcome U t l d rid a p Sm N St Hd Er Nw Sv Cl) as (c & k & lk & n & r & A & B & C & D & E & F). exists c, k, lk, n, r. repeat (split; [assumption|]). destruct F as [F|(_ & F)]; [left|right]; exact F.
Qed.
Lemma outcome_prompt U t l d rid a : Forall smooth l -> NoDup (y_ids l) -> let y := y_run U t l in settled U t y -> prompt U t l -> In (YCall d rid (Ok a)) l -> (exists p, y_request d rid = Ok p) -> y_ptype d <> 2 -> served_at t d a y -> clear_trace U d ->
  exists c k lk n r, nth_error (y_conns y) c = Some k /\ nth_error (M_AioClient.s_links (y_client t y)) c = Some lk /\ M_AioClient.k_addr lk = a /\
    In (n, y_interface d, y_method d, y_content d) (calls_on U k) /\ ended_with (y_server U k) n r /\ passed_on (y_client t y) rid r.
Proof.
  intros Sm N y St Pr Hd (p & Er) Nw Sv Cl. destruct (outcome U t l d rid a p Sm N St Hd Er Nw Sv Cl) as (c & k & lk & n & r & A & B & C & D & E & F). exists c, k, lk, n, r. repeat (split; [assumption|]). destruct F as [F|(F & _)]; [exact F|contradiction].
Qed.
Lemma served_there U t d a l : Forall smooth l -> served d l -> served_at t d a (y_run U t l).
Proof.
  intros Sm (A & B & C & D). split; [exact A|]. split; [exact B|]. intros c k lk Hk _ _. destruct (conns_ok U t l Sm c k Hk) as [_ (di & Dl) Cs]. split; [exact (C _ _ _ Dl)|]. intros z Hz. exact (D c z (Cs _ Hz)).
Qed.
Definition keeps (d : ycall) (o : ystep) : Prop :=
  match o with
  | YDial _ reg _ => match dget (y_interface d) reg with Some x => sv_raises x = None /\ sv_methods x (y_method d) = true | None => False end
  | YServer _ (Register s _) => s <> y_interface d
  | _ => True
  end.
Lemma served_intro d l : y_interface d <> [] -> y_method d <> [] -> Forall (keeps d) l -> served d l.
Proof.
  intros A B F. rewrite Forall_forall in F. split; [exact A|]. split; [exact B|]. split.
  - intros i reg tr H. apply F in H. cbn in H. destruct (dget (y_interface d) reg) as [x|] eqn:E; [|destruct H]. exists x. split; [exact E|exact H].
  - intros c x H. apply F in H. cbn in H. congruence.
Qed.
