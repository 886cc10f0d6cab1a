(** Lemmas about callbacks that use the client (M_Callback), for C118. *)
From Verif Require Import PyBase PyDict PyInt M_SofaHeader M_Package M_RpcId M_Trace M_AioServer S_Server M_System S_System M_Front S_Front L_Front M_Callback S_Callback.
From Verif Require M_AioClient.
Open Scope nat_scope.

Lemma erun_snoc U t l o : e_run U t (l ++ [o]) = e_step U t o (e_run U t l).
Proof. unfold e_run. rewrite fold_left_app. reflexivity. Qed.
Lemma erun_app U t l l2 : e_run U t (l ++ l2) = fold_left (fun s o => e_step U t o s) l2 (e_run U t l).
Proof. unfold e_run. rewrite fold_left_app. reflexivity. Qed.
Lemma nth_upd_ne {A} i j (f : A -> A) l : i <> j -> nth_error (upd i f l) j = nth_error l j.
Proof. revert i j. induction l as [|x l IH]; intros [|i] [|j] N; cbn; try reflexivity; try congruence. apply IH. congruence. Qed.

(** ** Every history is one of M_Front *)
Lemma part_app {A} (a b c d : list A) : part_of a b -> part_of c d -> part_of (a ++ c) (b ++ d).
Proof. intros H K. induction H; cbn; [exact K|constructor; assumption|apply part_skip; assumption]. Qed.
Lemma part_none {A} (b : list A) : part_of [] b.
Proof. induction b; constructor; assumption. Qed.
Lemma part_all {A} (b : list A) : part_of b b.
Proof. induction b; constructor; assumption. Qed.
Lemma wrun_snoc U t l o : w_run U t (l ++ [o]) = w_step U t o (w_run U t l).
Proof. unfold w_run. rewrite fold_left_app. reflexivity. Qed.
Lemma simulated U t l : exists l', e_front (e_run U t l) = w_run U t l' /\ part_of l' (concat (map plain l)).
Proof.
  induction l as [|o l IH] using rev_ind; [exists []; split; [reflexivity|constructor]|]. destruct IH as (l' & E & P). rewrite erun_snoc, map_app, concat_app. cbn [map concat]. rewrite app_nil_r.
  assert (Keep : exists l'', e_front (e_run U t l) = w_run U t l'' /\ part_of l'' (concat (map plain l) ++ plain o)).
  { exists l'. split; [exact E|]. rewrite <- (app_nil_r l'). apply part_app; [exact P|apply part_none]. }
  assert (Go : forall f, plain o = [f] -> exists l'', w_step U t f (e_front (e_run U t l)) = w_run U t l'' /\ part_of l'' (concat (map plain l) ++ plain o)).
  { intros f Ef. exists (l' ++ [f]). split; [rewrite wrun_snoc, E; reflexivity|]. rewrite Ef. apply part_app; [exact P|apply part_all]. }
  destruct o as [f|j|k d rid a|b]; cbn [e_step].
  - destruct (by_loop f && negb (is_free (e_loop (e_run U t l)))); [exact Keep|apply Go; reflexivity].
  - destruct (is_free (e_loop (e_run U t l))); [apply Go; reflexivity|exact Keep].
  - destruct (e_loop (e_run U t l)); [exact Keep|apply Go; reflexivity|exact Keep|exact Keep].
  - destruct (e_loop (e_run U t l)); exact Keep.
Qed.

(** ** invoke_sync in a callback *)
Lemma outcomes_log j w w' g : w_log w' = w_log w ++ g -> outcomes j w' = outcomes j w ++ concat (map (fun e => match e with EOver i r => if Nat.eqb i j then [r] else [] | _ => [] end) g).
Proof. intros E. unfold outcomes. rewrite E, map_app, concat_app. reflexivity. Qed.
Lemma outcomes_same i w w' g : w_log w' = w_log w ++ g -> (forall e r, In e g -> e <> EOver i r) -> outcomes i w' = outcomes i w.
Proof.
  intros E N. rewrite (outcomes_log i w w' g E). replace (concat _) with (@nil (res pyobj)); [apply app_nil_r|]. symmetry. clear E. induction g as [|e g IH]; [reflexivity|]. cbn. rewrite IH by (intros e' r H; apply N; right; exact H).
  destruct e as [j r| |]; try reflexivity. destruct (Nat.eqb_spec j i); [subst; destruct (N _ r (or_introl eq_refl)); reflexivity|reflexivity].
Qed.
Lemma wrapper_event k j u e : In e (callback_wrapper k j u) -> exists v, e = ECallback j v.
Proof. destruct k as [|[]|]; cbn; try tauto. destruct u as [| | |[]]; cbn; try tauto. intros [<-|[]]. eauto. Qed.
Definition waiting (i : nat) (w : front) : Prop := (exists k, nth_error (w_calls w) i = Some {| f_api := ASync; f_task := k; f_fut := FPending; f_over := false |}) /\ outcomes i w = [].
Definition sync_ended (r : res pyobj) (i : nat) (w : front) : Prop := (exists c, nth_error (w_calls w) i = Some c /\ f_api c = ASync /\ f_over c = true) /\ outcomes i w = [r].
Notation timed_out := (sync_ended (Raise TimeoutError)).
Lemma eqb_off i j : i <> j -> Nat.eqb j i = false.
Proof. intros. apply Nat.eqb_neq. congruence. Qed.
(** what a step does to the call *)
Lemma sync_ended_step U t o r0 i w : sync_ended r0 i w -> sync_ended r0 i (w_step U t o w).
Proof.
  intros ((c & Hc & Ha & Ho) & Eo).
  assert (App : forall x h g, (forall e r, In e g -> e <> EOver i r) -> sync_ended r0 i (add_call x h g w)).
  { intros x h g N. split; [exists c; cbn [add_call w_calls]; split; [apply nth_more; exact Hc|auto]|]. rewrite <- Eo. apply (outcomes_same i w (add_call x h g w) g eq_refl N). }
  assert (L : i < List.length (w_calls w)) by (apply nth_error_Some; congruence).
  assert (Set_ : forall j f g x, nth_error (w_calls w) j = Some x -> (forall y, f_api (f y) = f_api y) -> (forall y, f_over y = true -> f_over (f y) = true) -> (forall e r, In e g -> e <> EOver i r) -> sync_ended r0 i (set_call j f g w)).
  { intros j f g x Hj Fa Fo N. split.
    - destruct (Nat.eq_dec j i) as [->|Ne]; cbn [set_call w_calls]; [exists (f c)|exists c; rewrite nth_upd_ne by exact Ne; auto]. split; [apply upd_here; exact Hc|]. rewrite Fa. auto.
    - rewrite <- Eo. apply (outcomes_same i w (set_call j f g w) g eq_refl N). }
  assert (Ne' : forall r e r', In e [EOver (List.length (w_calls w)) r] -> e <> EOver i r') by (intros r e r' [<-|[]] X; injection X as X _; lia).
  assert (Keep : sync_ended r0 i w) by (split; [exists c; auto|exact Eo]).
  destruct o as [k d rid addr|o|j|j|j|j]; cbn [w_step].
  - destruct (entry_ok k d); [|apply App, Ne']. destruct (y_request (entry_call k d) rid); [|apply App, Ne']. destruct (callback_ok k d); apply App; [intros e r []|apply Ne'].
  - destruct o; try exact Keep; (split; [exists c; cbn; auto|exact Eo]).
  - destruct (nth_error (w_calls w) j) as [x|] eqn:Hj; [|exact Keep]. destruct (f_fut x); try exact Keep. destruct (nth_error _ (f_task x)) as [tk|]; [|exact Keep]. destruct (M_AioClient.t_pc tk); try exact Keep.
    apply (Set_ _ _ _ x Hj); [reflexivity|auto|]. intros e q H. apply wrapper_event in H as (v & ->). discriminate.
  - destruct (nth_error (w_calls w) j) as [x|] eqn:Hj; [|exact Keep]. destruct (f_api x) eqn:Hx; try exact Keep. destruct (f_fut x); try exact Keep. apply (Set_ _ _ _ x Hj); [reflexivity|auto|]. intros e q H. apply wrapper_event in H as (v & ->). discriminate.
  - destruct (nth_error (w_calls w) j) as [x|] eqn:Hj; [|exact Keep].
    assert (Id : sync_ended r0 i (set_call j (fun c => c) [ELate j] w)) by (apply (Set_ _ _ _ x Hj); [reflexivity|auto|intros e r [<-|[]]; discriminate]).
    destruct (f_api x) eqn:Hx; try exact Id. destruct (f_over x) eqn:Hv; [exact Id|]. apply (Set_ _ _ _ x Hj); [reflexivity|reflexivity|]. intros e r [<-|[<-|[]]]; [discriminate|]. intros X. injection X as -> _. congruence.
  - destruct (nth_error (w_calls w) j) as [x|] eqn:Hj; [|exact Keep]. destruct (f_api x) eqn:Hx; try exact Keep. destruct (f_over x) eqn:Hv; [exact Keep|]. destruct (result_now (f_fut x)); [|exact Keep]. apply (Set_ _ _ _ x Hj); [reflexivity|reflexivity|]. intros e q [<-|[]]. intros X. injection X as -> _. congruence.
Qed.
Lemma waiting_step U t o i w : waiting i w -> by_loop o = false -> waiting i (w_step U t o w) \/ (o = WLate i /\ timed_out i (w_step U t o w)).
Proof.
  intros ((k0 & Hc) & Eo) Bl.
  assert (L : i < List.length (w_calls w)) by (apply nth_error_Some; congruence).
  assert (Keep : waiting i w) by (split; [eauto|exact Eo]).
  assert (Out : forall w' g, w_log w' = w_log w ++ g -> (forall e r, In e g -> e <> EOver i r) -> outcomes i w' = []).
  { intros w' g E N. rewrite (outcomes_same i w w' g E N). exact Eo. }
  assert (App : forall x h g, (forall e r, In e g -> e <> EOver i r) -> waiting i (add_call x h g w)).
  { intros x h g N. split; [exists k0; cbn [add_call w_calls]; apply nth_more; exact Hc|]. exact (Out (add_call x h g w) g eq_refl N). }
  assert (Set_ : forall j f g, j <> i -> (forall e r, In e g -> e <> EOver i r) -> waiting i (set_call j f g w)).
  { intros j f g Ne N. split; [exists k0; cbn [set_call w_calls]; rewrite nth_upd_ne by exact Ne; exact Hc|]. exact (Out (set_call j f g w) g eq_refl N). }
  assert (Ne' : forall r e r', In e [EOver (List.length (w_calls w)) r] -> e <> EOver i r') by (intros r e r' [<-|[]] X; injection X as X _; lia).
  destruct o as [k d rid addr|o|j|j|j|j]; cbn [w_step]; try discriminate Bl.
  - left. destruct (entry_ok k d); [|apply App, Ne']. destruct (y_request (entry_call k d) rid); [|apply App, Ne']. destruct (callback_ok k d); apply App; [intros e r []|apply Ne'].
  - left. destruct o; try exact Keep; (split; [exists k0; exact Hc|exact Eo]).
  - left. destruct (nth_error (w_calls w) j) as [x|] eqn:Hj; [|exact Keep]. destruct (Nat.eq_dec j i) as [E|Ne]; [rewrite E, Hc in Hj; injection Hj as <-; exact Keep|]. destruct (f_api x) eqn:Hx; try exact Keep. destruct (f_fut x); try exact Keep. apply Set_; [exact Ne|]. intros e q H. apply wrapper_event in H as (v & ->). discriminate.
  - destruct (Nat.eq_dec j i) as [->|Ne].
    + right. split; [reflexivity|]. rewrite Hc. cbn [f_api f_over f_fut result_now]. split; [eexists; cbn [set_call w_calls]; split; [apply upd_here; exact Hc|split; reflexivity]|].
      erewrite (outcomes_log i w); [|reflexivity]. rewrite Eo. cbn. rewrite Nat.eqb_refl. reflexivity.
    + left. destruct (nth_error (w_calls w) j) as [x|] eqn:Hj; [|exact Keep].
      destruct (f_api x); [destruct (f_over x)| |]; (apply Set_; [exact Ne|]); intros e r; [intros [<-|[]]; discriminate|intros [<-|[<-|[]]]; [discriminate|intros X; injection X as X _; congruence]|intros [<-|[]]; discriminate|intros [<-|[]]; discriminate].
  - left. destruct (nth_error (w_calls w) j) as [x|] eqn:Hj; [|exact Keep]. destruct (Nat.eq_dec j i) as [E|Ne]; [rewrite E, Hc in Hj; injection Hj as <-; exact Keep|].
    destruct (f_api x) eqn:Hx; try exact Keep. destruct (f_over x) eqn:Hv; [exact Keep|]. destruct (result_now (f_fut x)); [|exact Keep]. apply Set_; [exact Ne|]. intros e q [<-|[]]. intros X. injection X as X _. congruence.
Qed.

Lemma over_waiting i w : waiting i w -> over i w = false.
Proof. intros ((k & E) & _). unfold over. rewrite E. reflexivity. Qed.
Lemma over_ended r i w : sync_ended r i w -> over i w = true.
Proof. intros ((c & E & _ & O) & _). unfold over. rewrite E. exact O. Qed.
(** once it has ended it stays so *)
Lemma ended_estep U t o r i s : sync_ended r i (e_front s) -> sync_ended r i (e_front (e_step U t o s)).
Proof.
  intros E. destruct o as [f|j|k d rid a|b]; cbn [e_step].
  - destruct (by_loop f && negb (is_free (e_loop s))); [exact E|apply sync_ended_step; exact E].
  - destruct (is_free (e_loop s)); [apply sync_ended_step; exact E|exact E].
  - destruct (e_loop s); try exact E. apply sync_ended_step. exact E.
  - destruct (e_loop s); exact E.
Qed.
Lemma blocked_estep U t o j i s : e_loop s = Blocked j i -> waiting i (e_front s) ->
  let s' := e_step U t o s in (e_loop s' = Blocked j i /\ waiting i (e_front s')) \/ (o = EOut (WLate i) /\ e_loop s' = InCallback j /\ timed_out i (e_front s')).
Proof.
  intros El W. destruct o as [f|j'|k d rid a|b]; cbn [e_step]; rewrite El; cbn [is_free negb].
  - rewrite andb_true_r. destruct (by_loop f) eqn:B; [left; auto|]. cbn [e_loop e_front loop_after]. destruct (waiting_step U t f i (e_front s) W B) as [W'|(-> & T)].
    + left. rewrite (over_waiting _ _ W'). auto.
    + right. rewrite (over_ended _ _ _ T). auto.
  - left. auto.
  - left. auto.
  - left. auto.
Qed.
Lemma new_sync U t d rid a w : let i := List.length (w_calls w) in let w' := w_step U t (WInvoke ASync d rid a) w in outcomes i w = [] ->
  (waiting i w' /\ is_number (y_timeout d) = true /\ exists p, y_request (entry_call ASync d) rid = Ok p) \/
  exists e, sync_ended (Raise e) i w' /\ (is_number (y_timeout d) = false \/ y_request (entry_call ASync d) rid = Raise e).
Proof.
  intros i w' Eo. unfold w'. cbn [w_step entry_ok callback_ok]. fold i. assert (Nw : forall x h g, nth_error (w_calls (add_call x h g w)) i = Some x) by (intros x h g; cbn [add_call w_calls]; unfold i; rewrite nth_error_app2, Nat.sub_diag by lia; reflexivity).
  destruct (is_number (y_timeout d)) eqn:En.
  - destruct (y_request (entry_call ASync d) rid) as [p|e] eqn:Ey.
    + left. split; [|eauto]. split; [eexists; apply Nw|]. rewrite <- Eo. apply (outcomes_same i w _ []); [cbn; rewrite app_nil_r; reflexivity|intros e r []].
    + right. exists e. split; [|auto]. split; [eexists; split; [apply Nw|auto]|]. rewrite (outcomes_log i w _ [EOver i (Raise e)]) by reflexivity. rewrite Eo. cbn. rewrite Nat.eqb_refl. reflexivity.
  - right. exists AssertionError. split; [|auto]. split; [eexists; split; [apply Nw|auto]|]. rewrite (outcomes_log i w _ [EOver i (Raise AssertionError)]) by reflexivity. rewrite Eo. cbn. rewrite Nat.eqb_refl. reflexivity.
Qed.
Lemma fresh_outcomes U t l : outcomes (List.length (w_calls (e_front (e_run U t l)))) (e_front (e_run U t l)) = [].
Proof. destruct (simulated U t l) as (l' & -> & _). pose proof (fresh_log U t l' _ (finv_run U t l')) as (_ & H & _). exact H. Qed.
(** what becomes of an invoke_sync made by a callback *)
Definition fate (i j : nat) (d : ycall) (rid : Z) (s : cbst) : Prop :=
  (is_number (y_timeout d) = true /\ (exists p, y_request (entry_call ASync d) rid = Ok p) /\ ((e_loop s = Blocked j i /\ waiting i (e_front s)) \/ timed_out i (e_front s))) \/
  exists e, sync_ended (Raise e) i (e_front s) /\ (is_number (y_timeout d) = false \/ y_request (entry_call ASync d) rid = Raise e).
Lemma fate_run U t l2 : forall i j d rid s, fate i j d rid s -> fate i j d rid (fold_left (fun s o => e_step U t o s) l2 s).
Proof.
  induction l2 as [|o l2 IH]; intros i j d rid s F; [exact F|]. cbn [fold_left]. apply IH. destruct F as [(A & B & [(C & D)|C])|(e & C & D)].
  - left. split; [exact A|]. split; [exact B|]. destruct (blocked_estep U t o j i s C D) as [X|(_ & _ & X)]; auto.
  - left. split; [exact A|]. split; [exact B|]. right. apply ended_estep. exact C.
  - right. exists e. split; [apply ended_estep; exact C|exact D].
Qed.
Lemma sync_fate U t l i d rid : sync_in_callback U t l i d rid -> exists j, fate i j d rid (e_run U t l).
Proof.
  intros (l1 & l2 & j & a & -> & El & ->). exists j. rewrite erun_app. cbn [fold_left]. apply fate_run. cbn [e_step]. rewrite El. unfold fate. cbn [e_front e_loop].
  destruct (new_sync U t d rid a _ (fresh_outcomes U t l1)) as [(W & A & B)|(e & E & A)]; [|right; exists e; auto]. left. split; [exact A|]. split; [exact B|]. left. rewrite (over_waiting _ _ W). auto.
Qed.
Lemma sync_never U t l i d rid v : sync_in_callback U t l i d rid -> ~ In (Ok v) (outcomes i (e_front (e_run U t l))).
Proof. intros H. destruct (sync_fate U t l i d rid H) as (j & [(_ & _ & [(_ & _ & E)|(_ & E)])|(e & (_ & E) & _)]); rewrite E; cbn; intuition discriminate. Qed.
Lemma sync_times_out U t l i d rid : sync_in_callback U t l i d rid -> is_number (y_timeout d) = true -> (exists p, y_request (entry_call ASync d) rid = Ok p) ->
  ((exists j, e_loop (e_run U t l) = Blocked j i) /\ outcomes i (e_front (e_run U t l)) = []) \/ outcomes i (e_front (e_run U t l)) = [Raise TimeoutError].
Proof. intros H A (p & B). destruct (sync_fate U t l i d rid H) as (j & [(_ & _ & [(C & _ & E)|(_ & E)])|(e & _ & [E|E])]); [left; eauto|right; exact E|congruence|congruence]. Qed.

(** ** While a callback runs *)
Lemma still_refl s : stands_still s s.
Proof. exists []. rewrite app_nil_r. repeat split; try reflexivity. intros k []. Qed.
Lemma still_trans a b c : stands_still a b -> stands_still b c -> stands_still a c.
Proof.
  intros (m & A1 & A2 & A3 & A4 & A5 & A6 & A7 & A8) (n & B1 & B2 & B3 & B4 & B5 & B6 & B7 & B8). exists (m ++ n). rewrite B1, A1, app_assoc. split; [reflexivity|]. split; [intros k H; apply in_app_iff in H as [H|H]; auto|]. repeat split; congruence.
Qed.
Lemma yhist_server U t h o : match o with YServer _ _ | YUp _ _ => True | _ => False end -> y_client t (y_run U t (h ++ [o])) = y_client t (y_run U t h).
Proof. unfold y_run. rewrite fold_left_app. cbn [fold_left]. fold (y_run U t h). destruct o as [| | |c o|c n|]; intros []; cbn [y_step]; [destruct o; reflexivity|destruct (nth_error (y_conns (y_run U t h)) c); reflexivity]. Qed.
Lemma still_step U t o w : by_loop o = false -> stands_still (w_client U t w) (w_client U t (w_step U t o w)).
Proof.
  intros B. assert (Same : forall w', w_hist w' = w_hist w -> stands_still (w_client U t w) (w_client U t w')) by (intros w' E; unfold w_client; rewrite E; apply still_refl).
  destruct o as [k d rid a|o|j|j|j|j]; cbn [w_step]; try discriminate B.
  - assert (One : forall x g p, y_request (entry_call k d) rid = Ok p -> stands_still (w_client U t w) (w_client U t (add_call x [YCall (entry_call k d) rid a] g w))).
    { intros x g p E. unfold w_client. cbn [add_call w_hist]. unfold y_run. rewrite fold_left_app. cbn [fold_left]. fold (y_run U t (w_hist w)). cbn [y_step]. rewrite E. unfold y_client_step, y_client. cbn [y_hist]. unfold M_AioClient.run. rewrite fold_left_app. cbn [fold_left]. cbn [M_AioClient.run_step M_AioClient.call].
      eexists. cbn. split; [reflexivity|]. split; [intros q [<-|[]]; reflexivity|]. repeat split. }
    destruct (entry_ok k d); [|apply Same; cbn; apply app_nil_r]. destruct (y_request (entry_call k d) rid) eqn:E; [|apply Same; cbn; apply app_nil_r]. destruct (callback_ok k d); eapply One; exact eq_refl.
  - destruct o as [| | |c o|c n|]; try discriminate B; unfold w_client; cbn [w_hist]; rewrite yhist_server by exact Logic.I; apply still_refl.
  - apply Same. destruct (nth_error (w_calls w) j) as [x|]; [|reflexivity]. destruct (f_api x), (f_fut x); reflexivity.
  - apply Same. destruct (nth_error (w_calls w) j) as [x|]; [|reflexivity]. destruct (f_api x), (f_over x); reflexivity.
  - apply Same. destruct (nth_error (w_calls w) j) as [x|]; [|reflexivity]. destruct (f_api x), (f_over x); try reflexivity. destruct (result_now (f_fut x)); reflexivity.
Qed.
Lemma quiet_refl w : quiet w w.
Proof. split; [exists []; rewrite app_nil_r; repeat split; [intros j v []|intros j v []]|auto]. Qed.
Lemma quiet_trans a b c : quiet a b -> quiet b c -> quiet a c.
Proof.
  intros ((g & A1 & A2 & A3) & A4) ((g' & B1 & B2 & B3) & B4). split; [|auto]. exists (g ++ g'). rewrite B1, A1, app_assoc. split; [reflexivity|].
  split; [intros j v H; apply in_app_iff in H as [H|H]; [exact (A2 j v H)|exact (B2 j v H)]|]. intros j v H. apply in_app_iff in H as [H|H]; [exact (A3 j v H)|apply A4; exact (B3 j v H)].
Qed.
Lemma settled_snoc c h g j w : (forall r, f_fut c <> FDone r) -> settled j (add_call c h g w) -> settled j w.
Proof.
  intros N (x & Hx & r & Hr). cbn [add_call w_calls] in Hx. destruct (Nat.lt_ge_cases j (List.length (w_calls w))) as [L|L]; [rewrite nth_error_app1 in Hx by exact L; exists x; eauto|].
  rewrite nth_error_app2 in Hx by exact L. destruct (j - List.length (w_calls w)) as [|n]; [injection Hx as <-; destruct (N r Hr)|destruct n; discriminate].
Qed.
Lemma nth_upd_eq {A} i (f : A -> A) l x : nth_error l i = Some x -> nth_error (upd i f l) i = Some (f x).
Proof. revert i. induction l as [|y l IH]; intros [|i] H; try discriminate; [injection H as ->; reflexivity|cbn; apply IH; exact H]. Qed.
Lemma settled_set k f g j w x : nth_error (w_calls w) k = Some x -> (forall r, f_fut (f x) = FDone r -> f_fut x = FDone r) -> settled j (set_call k f g w) -> settled j w.
Proof.
  intros Hk N (y & Hy & r & Hr). cbn [set_call w_calls] in Hy. destruct (Nat.eq_dec k j) as [->|Ne]; [|rewrite nth_upd_ne in Hy by exact Ne; exists y; eauto].
  rewrite (nth_upd_eq _ _ _ _ Hk) in Hy. injection Hy as <-. exists x. split; [exact Hk|]. exists r. apply N. exact Hr.
Qed.
Lemma result_settled j w c v : nth_error (w_calls w) j = Some c -> result_now (f_fut c) = Some (Ok v) -> settled j w.
Proof. intros H E. exists c. split; [exact H|]. destruct (f_fut c) as [| | |r]; try discriminate E. eauto. Qed.
Lemma quiet_step U t o w : by_loop o = false -> quiet w (w_step U t o w).
Proof.
  intros B. assert (Add : forall c h g, (forall r, f_fut c <> FDone r) -> (forall j v, ~ In (ECallback j v) g) -> (forall j v, ~ In (EOver j (Ok v)) g) -> quiet w (add_call c h g w)).
  { intros c h g N N1 N2. split; [exists g; split; [reflexivity|]; split; [exact N1|intros j v H; destruct (N2 j v H)]|]. intros j. apply settled_snoc. exact N. }
  assert (Fl : forall n e j v, ~ In (ECallback j v) [EOver n (@Raise pyobj e)] /\ ~ In (EOver j (Ok v)) [EOver n (@Raise pyobj e)]) by (intros n e j v; split; intros [H|[]]; discriminate).
  destruct o as [k d rid a|o|j|j|j|j]; cbn [w_step]; try discriminate B.
  - destruct (entry_ok k d); [destruct (y_request (entry_call k d) rid); [destruct (callback_ok k d)|]|]; apply Add; try (intros r; discriminate); try (intros i v H; exact H); intros i v; apply Fl.
  - destruct o; try apply quiet_refl; (split; [exists []; cbn; rewrite app_nil_r; split; [reflexivity|]; split; intros j v []|intros j H; exact H]).
  - destruct (nth_error (w_calls w) j) as [x|] eqn:Hj; [|apply quiet_refl]. destruct (f_api x) eqn:Ha; try apply quiet_refl. destruct (f_fut x) eqn:Hf; try apply quiet_refl. split; [|intros i; apply (settled_set _ _ _ _ _ _ Hj); discriminate].
    eexists. split; [reflexivity|]. assert (callback_wrapper (AAsync callback) j FCancelled = []) as -> by (destruct callback; reflexivity). split; intros i v [].
  - destruct (nth_error (w_calls w) j) as [x|] eqn:Hj; [|apply quiet_refl]. assert (Id : quiet w (set_call j (fun c => c) [ELate j] w)).
    { split; [|intros i; apply (settled_set _ _ _ _ _ _ Hj); auto]. eexists. split; [reflexivity|]. split; intros i v [H|[]]; discriminate. }
    destruct (f_api x) eqn:Ha; try exact Id. destruct (f_over x) eqn:Ho; [exact Id|]. split; [|intros i; apply (settled_set _ _ _ _ _ _ Hj); auto]. eexists. split; [reflexivity|]. split; [intros i v [H|[H|[]]]; discriminate|].
    intros i v [H|[H|[]]]; [discriminate|]. injection H as <- H. destruct (result_now (f_fut x)) as [r|] eqn:Er; [|discriminate]. apply (result_settled j w x v Hj). congruence.
  - destruct (nth_error (w_calls w) j) as [x|] eqn:Hj; [|apply quiet_refl]. destruct (f_api x) eqn:Ha; try apply quiet_refl. destruct (f_over x) eqn:Ho; [apply quiet_refl|]. destruct (result_now (f_fut x)) as [r|] eqn:Er; [|apply quiet_refl].
    split; [|intros i; apply (settled_set _ _ _ _ _ _ Hj); auto]. eexists. split; [reflexivity|]. split; [intros i v [H|[]]; discriminate|]. intros i v [H|[]]. injection H as <- H. apply (result_settled j w x v Hj). congruence.
Qed.
Lemma busy_estep U t o s : is_free (e_loop s) = false -> (forall b, o <> EEnd b) -> let s' := e_step U t o s in
  is_free (e_loop s') = false /\ stands_still (w_client U t (e_front s)) (w_client U t (e_front s')) /\ quiet (e_front s) (e_front s').
Proof.
  intros F N. assert (Keep : is_free (e_loop s) = false /\ stands_still (w_client U t (e_front s)) (w_client U t (e_front s)) /\ quiet (e_front s) (e_front s)) by (split; [exact F|split; [apply still_refl|apply quiet_refl]]).
  destruct o as [f|j|k d rid a|b]; [| | |destruct (N b eq_refl)]; cbn [e_step].
  - rewrite F. cbn [negb]. rewrite andb_true_r. destruct (by_loop f) eqn:B; [exact Keep|]. cbn [e_loop e_front]. split; [|split; [apply still_step; exact B|apply quiet_step; exact B]].
    destruct (e_loop s) as [|j|j i|]; [discriminate F|reflexivity| |reflexivity]. cbn [loop_after]. destruct (over i (w_step U t f (e_front s))); reflexivity.
  - rewrite F. exact Keep.
  - destruct (e_loop s) as [|j|j i|] eqn:El; [discriminate F| |rewrite El; exact Keep|rewrite El; exact Keep]. cbn [e_loop e_front]. split; [|split; [apply still_step; reflexivity|apply quiet_step; reflexivity]]. destruct k; try reflexivity. destruct (over _ _); reflexivity.
Qed.
Lemma busy_run U t l l2 : is_free (e_loop (e_run U t l)) = false -> (forall b, ~ In (EEnd b) l2) -> let w := e_front (e_run U t l) in let w' := e_front (e_run U t (l ++ l2)) in
  stands_still (w_client U t w) (w_client U t w') /\ quiet w w'.
Proof.
  rewrite erun_app. generalize (e_run U t l). clear l. induction l2 as [|o l2 IH]; intros s F N; [split; [apply still_refl|apply quiet_refl]|]. cbn [fold_left].
  destruct (busy_estep U t o s F) as (A & B & C); [intros b ->; apply (N b); left; reflexivity|]. destruct (IH _ A) as (D & E); [intros b H; apply (N b); right; exact H|]. split; [eapply still_trans; eassumption|eapply quiet_trans; eassumption].
Qed.
(** ** The loop gets free again *)
Lemma blocked_waits U t l j i : e_loop (e_run U t l) = Blocked j i -> waiting i (e_front (e_run U t l)).
Proof.
  revert j i. induction l as [|o l IH] using rev_ind; intros j i E; [discriminate|]. rewrite erun_snoc in *. set (s := e_run U t l) in *. destruct (e_loop s) as [|j0|j0 i0|] eqn:El.
  - exfalso. destruct o as [f|j0|k d rid a|b]; cbn [e_step] in E; rewrite El in E; cbn [is_free negb] in E; try congruence; [|discriminate E]. rewrite andb_false_r in E. cbn [e_loop loop_after] in E. destruct f; try discriminate E. destruct (skipn _ _); discriminate E.
  - destruct o as [f|j1|k d rid a|b]; cbn [e_step] in *; rewrite El in *; cbn [is_free negb] in *; rewrite ?andb_true_r in *.
    + destruct (by_loop f); [congruence|]. discriminate E.
    + congruence.
    + cbn [e_loop e_front] in *. destruct k; try discriminate E. destruct (over _ _) eqn:Eov; [discriminate E|]. injection E as <- <-. destruct (new_sync U t d rid a _ (fresh_outcomes U t l)) as [(W & _)|(e & X & _)]; [exact W|]. fold s in X. apply over_ended in X. congruence.
    + cbn [e_loop] in E. destruct b; discriminate E.
  - destruct (blocked_estep U t o j0 i0 s El (IH _ _ eq_refl)) as [(A & B)|(_ & A & _)]; [|congruence]. rewrite A in E. injection E as <- <-. exact B.
  - exfalso. destruct o as [f|j1|k d rid a|b]; cbn [e_step] in E; rewrite El in E; cbn [is_free negb] in E; rewrite ?andb_true_r in E; try congruence. destruct (by_loop f); [congruence|discriminate E].
Qed.
Lemma gets_free U t l : e_loop (e_run U t l) <> Gone -> exists l2, List.length l2 <= 2 /\ e_loop (e_run U t (l ++ l2)) = Free.
Proof.
  intros Ng. destruct (e_loop (e_run U t l)) as [|j|j i|] eqn:E; [| | |congruence].
  - exists []. rewrite app_nil_r. split; [cbn; lia|exact E].
  - exists [EEnd false]. split; [cbn; lia|]. rewrite erun_snoc. cbn [e_step]. rewrite E. reflexivity.
  - exists [EOut (WLate i); EEnd false]. split; [cbn; lia|]. rewrite erun_app. cbn [fold_left]. pose proof (blocked_waits U t l j i E) as W.
    destruct (blocked_estep U t (EOut (WLate i)) j i _ E W) as [(A & B)|(_ & A & _)].
    + exfalso. destruct B as ((k & B) & _). destruct W as ((k0 & W) & _). cbn [e_step by_loop andb e_front w_step] in B. rewrite W in B. cbn [f_api f_over set_call w_calls] in B. rewrite (nth_upd_eq _ _ _ _ W) in B. discriminate B.
    + cbn [e_step] in *. rewrite A. reflexivity.
Qed.

(** ** When the loop is in a callback *)
Lemma app_self {A} (l g : list A) : l = l ++ g -> g = [].
Proof. intros E. apply (f_equal (@List.length A)) in E. rewrite app_length in E. destruct g; [reflexivity|cbn in E; lia]. Qed.
Lemma log_grows U t o w : exists g, w_log (w_step U t o w) = w_log w ++ g /\ match o with WSettle j => g = [] \/ exists v, g = [ECallback j v] | _ => forall j v, g <> [ECallback j v] end.
Proof.
  assert (Z : exists g, w_log w = w_log w ++ g /\ match o with WSettle j => g = [] \/ exists v, g = [ECallback j v] | _ => forall j v, g <> [ECallback j v] end) by (exists []; split; [symmetry; apply app_nil_r|destruct o; auto; discriminate]).
  destruct o as [k d rid addr|o|j|j|j|j]; cbn [w_step].
  - destruct (entry_ok k d); [destruct (y_request (entry_call k d) rid); [destruct (callback_ok k d)|]|]; eexists; (split; [reflexivity|discriminate]).
  - destruct o; exists []; (split; [symmetry; apply app_nil_r|discriminate]).
  - destruct (nth_error (w_calls w) j) as [c|]; [|exact Z]. destruct (f_fut c); try exact Z. destruct (nth_error (M_AioClient.s_tasks (w_client U t w)) (f_task c)) as [tk|]; [|exact Z]. destruct (M_AioClient.t_pc tk); try exact Z.
    eexists. split; [reflexivity|]. unfold callback_wrapper. destruct (f_api c) as [|[]|]; auto. destruct (future_of r) as [| | |[]]; eauto.
  - destruct (nth_error (w_calls w) j) as [c|]; [|exact Z]. destruct (f_api c) as [|b|]; try exact Z. destruct (f_fut c); try exact Z. eexists. split; [reflexivity|]. unfold callback_wrapper. destruct b; discriminate.
  - destruct (nth_error (w_calls w) j) as [c|]; [|exact Z].
    repeat match goal with |- context [match ?x with _ => _ end] => destruct x; try exact Z end; eexists; (split; [reflexivity|discriminate]).
  - destruct (nth_error (w_calls w) j) as [c|]; [|exact Z].
    repeat match goal with |- context [match ?x with _ => _ end] => destruct x; try exact Z end; eexists; (split; [reflexivity|discriminate]).
Qed.
Lemma callback_holds U t l o j : is_free (e_loop (e_run U t l)) = true -> let s := e_run U t l in let s' := e_run U t (l ++ [EOut o]) in
  e_loop s' = InCallback j <-> exists v, w_log (e_front s') = w_log (e_front s) ++ [ECallback j v].
Proof.
  intros F s s'. subst s'. rewrite erun_snoc. fold s in F |- *. cbn [e_step]. rewrite F. rewrite andb_false_r. cbn [e_front e_loop].
  destruct (e_loop s) eqn:Es; try discriminate F. destruct (log_grows U t o (e_front s)) as (g & G & P). rewrite G. cbn [loop_after].
  assert (Q : forall l0, w_log (e_front s) ++ g = w_log (e_front s) ++ l0 -> g = l0) by (intros l0; apply app_inv_head).
  destruct o as [k d rid addr|o|i|i|i|i]; try (split; [discriminate|intros (v & E); destruct (P j v (Q _ E))]).
  rewrite G, skipn_app, skipn_all, Nat.sub_diag. cbn [app skipn]. destruct P as [-> |(v & ->)].
  - split; [discriminate|]. intros (v & E). discriminate (Q _ E).
  - split; [intros [= ->]; eauto|]. intros (v' & E). apply Q in E. injection E as -> _. reflexivity.
Qed.
Lemma callback_goes_on U t l o j : e_loop (e_run U t l) = InCallback j -> let s := e_run U t l in
  e_loop (e_run U t (l ++ [o])) = match o with
  | EEnd stops => if stops then Gone else Free
  | EAct ASync d rid addr => if over (List.length (w_calls (e_front s))) (e_front (e_run U t (l ++ [o]))) then InCallback j else Blocked j (List.length (w_calls (e_front s)))
  | _ => InCallback j
  end.
Proof.
  intros H s. subst s. rewrite erun_snoc. set (s := e_run U t l) in *. destruct o as [o|i|k d rid addr|b]; cbn [e_step]; rewrite H; cbn [is_free negb].
  - rewrite andb_true_r. destruct (by_loop o); [exact H|]. reflexivity.
  - exact H.
  - destruct k; reflexivity.
  - reflexivity.
Qed.
Lemma blocked_open U t l : forall j i, e_loop (e_run U t l) = Blocked j i -> over i (e_front (e_run U t l)) = false.
Proof.
  induction l as [|o l IH] using rev_ind; intros j i H; [discriminate H|]. rewrite erun_snoc in H |- *. set (s := e_run U t l) in *. destruct o as [o|j'|k d rid addr|b]; cbn [e_step] in H |- *.
  - destruct (by_loop o && negb (is_free (e_loop s))); [exact (IH j i H)|]. cbn [e_loop e_front] in H |- *. unfold loop_after in H. destruct (e_loop s) as [|j0|j0 i0|].
    + destruct o; try discriminate H. destruct (skipn _ _); discriminate H.
    + discriminate H.
    + destruct (over i0 (w_step U t o (e_front s))) eqn:Ov; [discriminate H|]. injection H as -> ->. exact Ov.
    + discriminate H.
  - destruct (is_free (e_loop s)); [discriminate H|exact (IH j i H)].
  - destruct (e_loop s) as [|j0|j0 i0|] eqn:Es; [rewrite Es in H; discriminate H| |apply (IH j); rewrite Es in H; exact H|rewrite Es in H; discriminate H].
    cbn [e_loop e_front] in H |- *. destruct k; try discriminate H. destruct (over (List.length (w_calls (e_front s))) (w_step U t (WInvoke ASync d rid addr) (e_front s))) eqn:Ov; [discriminate H|]. injection H as -> <-. exact Ov.
  - destruct (e_loop s) as [|j0|j0 i0|] eqn:Es; [rewrite Es in H; discriminate H|destruct b; discriminate H|apply (IH j); rewrite Es in H; exact H|rewrite Es in H; discriminate H].
Qed.
Lemma blocked_until U t l o j i : e_loop (e_run U t l) = Blocked j i ->
  e_loop (e_run U t (l ++ [o])) = if over i (e_front (e_run U t (l ++ [o]))) then InCallback j else Blocked j i.
Proof.
  intros H. pose proof (blocked_open U t l j i H) as Op. rewrite erun_snoc. set (s := e_run U t l) in *. destruct o as [o|j'|k d rid addr|b]; cbn [e_step]; rewrite H; cbn [is_free negb]; try (rewrite H, Op; reflexivity).
  rewrite andb_true_r. destruct (by_loop o); [rewrite H, Op; reflexivity|]. reflexivity.
Qed.

Lemma elsewhere_goes U t l o : elsewhere o -> e_front (e_run U t (l ++ [EOut o])) = w_step U t o (e_front (e_run U t l)).
Proof. intros H. unfold e_run. rewrite fold_left_app. cbn [fold_left]. fold (e_run U t l). cbn [e_step]. destruct H; reflexivity. Qed.
