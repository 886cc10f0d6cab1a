(** Lemmas behind C97: every client is accounted for, and a shutdown that found the server returns. *)
From Coq Require Import Lia.
From Verif Require Import PyBase M_AioServer L_AioServer2 M_Listener M_Lifecycle S_Lifecycle L_Lifecycle.
Open Scope nat_scope.

(** ** The threaded listener *)
Lemma kconnects_app a b : kconnects (a ++ b) = kconnects a + kconnects b.
Proof. unfold kconnects. rewrite filter_app, app_length. reflexivity. Qed.
Lemma clients_step o s n : k_open s = true -> k_refused s = [] -> k_next s = n -> k_served s ++ k_waiting s = seq 0 n ->
  let s' := k_step o s in k_open s' = true /\ k_refused s' = [] /\ k_next s' = n + kconnects [o] /\ k_served s' ++ k_waiting s' = seq 0 (n + kconnects [o]).
Proof.
  intros A B C D. assert (Same : forall s', k_open s' = k_open s -> k_refused s' = k_refused s -> k_next s' = k_next s -> k_served s' ++ k_waiting s' = k_served s ++ k_waiting s ->
    k_open s' = true /\ k_refused s' = [] /\ k_next s' = n + 0 /\ k_served s' ++ k_waiting s' = seq 0 (n + 0)).
  { intros s' E1 E2 E3 E4. rewrite Nat.add_0_r, E1, E2, E3, E4. auto. }
  destruct o as [| | |i]; cbn zeta.
  - apply Same; reflexivity.
  - apply Same; reflexivity.
  - cbn [k_step]. rewrite A. cbn. split; [reflexivity|]. split; [exact B|]. split; [lia|]. rewrite app_assoc, D, Nat.add_1_r, seq_S, C. reflexivity.
  - change (kconnects [KGo i]) with 0. cbn [k_step]. destruct (nth_error (k_threads s) i) as [[p|p]|]; [| |apply Same; reflexivity].
    + destruct p; try (apply Same; reflexivity). destruct (k_waiting s) as [|c w] eqn:Ew; apply Same; try reflexivity; cbn; [rewrite Ew; reflexivity|]. rewrite <- app_assoc. reflexivity.
    + destruct p; try (apply Same; reflexivity). destruct (k_event s); apply Same; reflexivity.
Qed.
Lemma threaded_clients l : k_refused (k_run l) = [] /\ k_served (k_run l) ++ k_waiting (k_run l) = seq 0 (kconnects l).
Proof.
  assert (H : k_open (k_run l) = true /\ k_refused (k_run l) = [] /\ k_next (k_run l) = kconnects l /\ k_served (k_run l) ++ k_waiting (k_run l) = seq 0 (kconnects l)); [|tauto].
  induction l as [|o l (A & B & C & D)] using rev_ind; [repeat split|]. unfold k_run. rewrite kfrom_app, kconnects_app. exact (clients_step o _ _ A B C D).
Qed.

(** ** The asyncio listener *)
Lemma connects_app a b : connects (a ++ b) = connects a + connects b.
Proof. unfold connects. rewrite filter_app, app_length. reflexivity. Qed.
Definition clients (s : gst) : nat := accepted s + g_waiting s + g_refused s.
Lemma gclients_step U o s : clients (g_step U o s) = clients s + connects [o].
Proof.
  unfold clients, accepted. destruct o as [bound| |i| |o]; cbn [g_step].
  - cbn [connects filter List.length]. destruct (g_pc s); try (cbn; lia); [destruct bound; cbn; lia|destruct (g_stop s); cbn; lia].
  - cbn. lia.
  - destruct (nth_error (g_stops s) i) as [[| | |]|]; cbn; lia.
  - destruct (g_open s); cbn; lia.
  - destruct o as [tr|name sv|c o|].
    + destruct (looping s && g_open s); [destruct (g_waiting s) eqn:Ew|]; cbn; rewrite ?Ew, ?app_length; cbn; lia.
    + cbn [g_listener g_lst g_waiting g_refused]. rewrite lrun_conns by discriminate. cbn. lia.
    + assert (K : forall o', List.length (n_conns (g_lst (g_listener (g_waiting s) (lrun_step U (LConn c o') (g_lst s)) s))) = List.length (n_conns (g_lst s))) by (intros o'; cbn [g_listener g_lst]; apply lrun_conns; discriminate).
      destruct o; try destruct (looping s); rewrite ?K; cbn [g_listener g_waiting g_refused]; cbn; lia.
    + cbn [g_listener g_lst g_waiting g_refused]. rewrite lrun_conns by discriminate. cbn. lia.
Qed.
Lemma asyncio_clients U reg l : let s := g_run U reg l in accepted s + g_waiting s + g_refused s = connects l.
Proof.
  cbn zeta. change (clients (g_run U reg l) = connects l). induction l as [|o l IH] using rev_ind; [reflexivity|]. unfold g_run in *. rewrite gfrom_app, connects_app, <- IH. exact (gclients_step U o _).
Qed.

(** before the address is bound the socket does not listen and nobody is accepted *)
Definition unbound (s : gst) : Prop := g_pc s <> GBound -> g_pc s <> GRunning -> g_open s = false /\ accepted s = 0.
Lemma unbound_step U o s : gok s -> unbound s -> unbound (g_step U o s).
Proof.
  intros O I. unfold unbound, accepted in *. destruct o as [bound| |i| |o]; cbn [g_step].
  - destruct (g_pc s) eqn:Ep; cbn; try (intros; congruence); try (intros _ _; apply I; discriminate).
    + destruct bound; cbn; [congruence|intros _ _; apply I; discriminate].
    + rewrite (go_stop _ O). rewrite Ep. congruence.
  - exact I.
  - destruct (nth_error (g_stops s) i) as [[| | |]|]; cbn; auto. intros A B. split; [reflexivity|]. apply I; assumption.
  - destruct (g_open s) eqn:Eo; cbn; rewrite ?Eo; exact I.
  - destruct o as [tr|name sv|c o|].
    + destruct (looping s && g_open s) eqn:El; [|exact I]. destruct (g_waiting s); [exact I|]. cbn. unfold looping in El. destruct (g_pc s); discriminate || congruence.
    + cbn [g_listener g_lst g_open g_pc]. rewrite lrun_conns by discriminate. exact I.
    + assert (K : forall o', List.length (n_conns (g_lst (g_listener (g_waiting s) (lrun_step U (LConn c o') (g_lst s)) s))) = List.length (n_conns (g_lst s))) by (intros o'; cbn [g_listener g_lst]; apply lrun_conns; discriminate).
      destruct o; try destruct (looping s); rewrite ?K; exact I.
    + cbn [g_listener g_lst g_open g_pc]. rewrite lrun_conns by discriminate. exact I.
Qed.
Lemma asyncio_before U reg l : let s := g_run U reg l in g_pc s <> GBound -> g_pc s <> GRunning -> g_refused s = connects l.
Proof.
  cbn zeta. intros A B.
  assert (I : unbound (g_run U reg l)).
  { clear. induction l as [|o l IH] using rev_ind; [intros _ _; split; reflexivity|]. unfold g_run. rewrite gfrom_app. apply unbound_step; [apply gok_run|exact IH]. }
  destruct (I A B) as (Op & Ac). pose proof (go_waiting _ (gok_run U reg l) Op) as W. pose proof (asyncio_clients U reg l) as C. cbn zeta in C. lia.
Qed.

(** how many steps of a shutdown that finds the server are left *)
Definition aleft (p : apc) : nat := match p with AFind => 3 | AClose => 2 | ASchedule => 1 | AReturned _ => 0 end.
Definition stops_at (i : nat) (p : apc) (s : gst) : Prop := nth_error (g_stops s) i = Some p /\ g_server s = true /\ p <> AReturned false.
Lemma goes_app i a b : goes i (a ++ b) = goes i a + goes i b.
Proof. unfold goes. rewrite filter_app, app_length. reflexivity. Qed.
Lemma stops_step U o i p s : gok s -> stops_at i p s -> exists p', stops_at i p' (g_step U o s) /\ aleft p' + goes i [o] <= Nat.max (aleft p) (goes i [o]).
Proof.
  intros O (Hi & Hs & Np). pose proof (gok_step U o s O) as O'.
  assert (Ep : g_pc s = GRunning) by exact (go_server _ O Hs).
  assert (Same : g_stops (g_step U o s) = g_stops s -> goes i [o] = 0 -> exists p', stops_at i p' (g_step U o s) /\ aleft p' + goes i [o] <= Nat.max (aleft p) (goes i [o])).
  { intros E0 E1. exists p. rewrite E1. split; [|lia]. split; [rewrite E0; exact Hi|]. split; [|exact Np]. apply (go_running _ O'). apply running_step; assumption. }
  destruct o as [bound| |j| |o].
  - apply Same; [|reflexivity]. cbn [g_step]. rewrite Ep. destruct (g_stop s); reflexivity.
  - exists p. split; [|cbn; lia]. split; [cbn; rewrite nth_error_app1; [exact Hi|apply nth_error_Some; congruence]|]. split; [exact Hs|exact Np].
  - unfold goes. cbn [filter]. destruct (Nat.eqb_spec j i) as [->|Ne].
    + cbn [g_step List.length]. rewrite Hi. assert (K : forall q, nth_error (upd i (fun _ => q) (g_stops s)) i = Some q) by (intros q; exact (nth_upd_same _ _ _ _ Hi)). destruct p as [| | |found].
      * rewrite Hs. exists AClose. split; [split; [exact (K AClose)|split; [exact Hs|discriminate]]|cbn; lia].
      * exists ASchedule. split; [split; [exact (K ASchedule)|split; [exact Hs|discriminate]]|cbn; lia].
      * exists (AReturned true). split; [split; [exact (K (AReturned true))|split; [exact Hs|discriminate]]|cbn; lia].
      * exists (AReturned found). split; [split; [exact Hi|split; [exact Hs|exact Np]]|cbn; lia].
    + exists p. split; [|cbn; lia]. cbn [g_step]. assert (K : forall q, nth_error (upd j (fun _ => q) (g_stops s)) i = Some p) by (intros q; rewrite nth_upd_other; [exact Hi|exact Ne]).
      destruct (nth_error (g_stops s) j) as [[| | |]|]; (split; [first [exact (K _)|exact Hi]|split; [exact Hs|exact Np]]).
  - apply Same; [|reflexivity]. cbn [g_step]. destruct (g_open s); reflexivity.
  - apply Same; [|reflexivity]. cbn [g_step]. destruct o as [tr|name sv|c o|]; try reflexivity; [destruct (looping s && g_open s); [destruct (g_waiting s)|]; reflexivity|]. destruct o; try reflexivity; destruct (looping s); reflexivity.
Qed.
Lemma stops_from U l : forall i p s, gok s -> stops_at i p s -> exists p', stops_at i p' (g_from U s l) /\ aleft p' + goes i l <= Nat.max (aleft p) (goes i l).
Proof.
  induction l as [|o l IH]; intros i p s O S; [exists p; split; [exact S|cbn; lia]|].
  destruct (stops_step U o i p s O S) as (q & Sq & Lq). destruct (IH i q (g_step U o s) (gok_step U o s O) Sq) as (q' & Sq' & Lq'). exists q'. split; [exact Sq'|].
  change (o :: l) with ([o] ++ l). rewrite goes_app. assert (goes i [o] <= 1) by (unfold goes; cbn [filter]; destruct o as [| |j| |]; try (cbn; lia); destruct (Nat.eqb j i); cbn; lia). lia.
Qed.
Lemma asyncio_shutdown_done U reg l1 l2 : let s := g_run U reg l1 in let i := List.length (g_stops s) in g_server s = true -> 3 <= goes i l2 ->
  let s2 := g_from U (g_step U GShutdown s) l2 in nth_error (g_stops s2) i = Some (AReturned true) /\ g_open s2 = false /\ g_waiting s2 = 0.
Proof.
  cbn zeta. intros Hs Hg. set (s := g_run U reg l1) in *. set (i := List.length (g_stops s)) in *. assert (O1 : gok (g_step U GShutdown s)) by (apply gok_step, gok_run).
  destruct (stops_from U l2 i AFind (g_step U GShutdown s) O1) as (p & (A & B & C) & L).
  { split; [cbn; unfold i; rewrite nth_error_app2, Nat.sub_diag; reflexivity || lia|]. split; [exact Hs|discriminate]. }
  assert (aleft p = 0) by (change (aleft AFind) with 3 in L; lia). destruct p as [| | |[]]; try discriminate; [|congruence]. split; [exact A|].
  pose proof (gok_from U l2 _ O1) as O2. assert (E : g_open (g_from U (g_step U GShutdown s) l2) = false) by (apply (go_closed _ O2 i _ A); auto). split; [exact E|exact (go_waiting _ O2 E)].
Qed.
