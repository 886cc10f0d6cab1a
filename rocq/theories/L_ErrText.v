(** Lemmas behind C148. *)
From Coq Require Import Strings.String Lia.
From Verif Require Import PyBase PyInt M_Package M_ErrText S_ErrText.

Lemma said key rp pr c p a s : says c = Some p -> message a s -> exists e, make key c [a] = Ok e /\ e_cls e = c /\ text key rp pr e = p ++ s.
Proof.
  intros P [->|(r & ->)]; destruct c; try discriminate P; injection P as <-; (eexists; split; [reflexivity|split; reflexivity]).
Qed.
Lemma status_text key rp pr c st : c = ServerE \/ c = NoProcessorE -> exists e, from_statuscode key c st = Ok e /\ e_cls e = c /\ text key rp pr e = str "ServerError: ServerError: RESPSTATUS=" ++ str_int st ++ str ", " ++ status_name st.
Proof. intros [->| ->]; (eexists; split; [reflexivity|split; reflexivity]). Qed.
Definition status_line (st : Z) : pystr := str "ServerError: ServerError: RESPSTATUS=" ++ str_int st ++ str ", " ++ status_name st.
Lemma lines_differ : forallb (fun a => forallb (fun b => if pystr_eq_dec (status_line a) (status_line b) then a =? b else true) RESPSTATUS) RESPSTATUS = true.
Proof. vm_compute. reflexivity. Qed.
Lemma names_right : forallb (fun an => if pystr_eq_dec (status_name (fst an)) (snd an) then true else false) statuses_named = true.
Proof. vm_compute. reflexivity. Qed.
Lemma named_are : map fst statuses_named = RESPSTATUS.
Proof. reflexivity. Qed.
Lemma statuses key rp pr c a n b n' ea eb : c = ServerE \/ c = NoProcessorE -> In (a, n) statuses_named -> In (b, n') statuses_named -> from_statuscode key c a = Ok ea -> from_statuscode key c b = Ok eb ->
  mentions (str_int a) (text key rp pr ea) /\ mentions n (text key rp pr ea) /\ (text key rp pr ea = text key rp pr eb -> a = b).
Proof.
  intros C A B Ea Eb. destruct (status_text key rp pr c a C) as (xa & X1 & _ & X3). destruct (status_text key rp pr c b C) as (xb & Y1 & _ & Y3). rewrite Ea in X1. rewrite Eb in Y1. injection X1 as <-. injection Y1 as <-.
  assert (Nm : status_name a = n) by (pose proof names_right as F; rewrite forallb_forall in F; specialize (F _ A); cbv beta in F; cbn [fst snd] in F; destruct (pystr_eq_dec (status_name a) n); [assumption|discriminate F]). split; [|split].
  - rewrite X3. exists (str "ServerError: ServerError: RESPSTATUS="), (str ", " ++ status_name a). reflexivity.
  - rewrite X3, Nm. exists (str "ServerError: ServerError: RESPSTATUS=" ++ str_int a ++ str ", "), []. now rewrite app_nil_r, <- !app_assoc.
  - rewrite X3, Y3. change (status_line a = status_line b -> a = b). intros Q. pose proof lines_differ as F. rewrite forallb_forall in F. apply (in_map fst) in A. apply (in_map fst) in B. rewrite named_are in A, B. specialize (F a A). cbv beta in F. rewrite forallb_forall in F. specialize (F b B). cbv beta in F. destruct (pystr_eq_dec (status_line a) (status_line b)); [apply Z.eqb_eq, F|contradiction].
Qed.
Lemma pools key rp pr c i m : of_pool c -> exists e, make key c [APool i; AText m] = Ok e /\ e_cls e = c /\ e_pool e = Some (APool i) /\ mentions (rp (pool_text key i ++ str ": " ++ m)) (text key rp pr e).
Proof.
  intros C. exists {| e_cls := c; e_args := [ASelf; AText (pool_text key i ++ str ": " ++ m)]; e_pool := Some (APool i) |}. split; [destruct C as [->|[->| ->]]; reflexivity|]. split; [reflexivity|]. split; [reflexivity|].
  exists (str "(" ++ (name_of c ++ str "(...)") ++ str ", "), (str ")"). unfold text. cbn [e_args e_cls map commas arg_repr]. now rewrite <- !app_assoc.
Qed.
Lemma copied key c args e n : says c = Some [] -> make key c args = Ok e -> copies key n e = Ok e.
Proof.
  intros P M. assert (Q : e = {| e_cls := c; e_args := args; e_pool := None |}) by (destruct c; try discriminate P; injection M as <-; reflexivity). induction n as [|n IH]; [reflexivity|]. cbn [copies]. rewrite IH, Q. destruct c; try discriminate P; reflexivity.
Qed.
Lemma server_copy key rp pr c p m e n : says c = Some p -> make key c [AText m] = Ok e -> exists e1, copies key n e = Ok e1 /\ e_cls e1 = c /\ text key rp pr e1 = times (S n) p ++ m.
Proof.
  intros P M. assert (Q : exists e1, copies key n e = Ok e1 /\ e1 = {| e_cls := c; e_args := [AText (times (S n) p ++ m)]; e_pool := None |}).
  { induction n as [|n IH].
    - exists e. split; [reflexivity|]. destruct c; try discriminate P; injection P as <-; injection M as <-; reflexivity.
    - destruct IH as (e1 & I & ->). cbn [copies]. rewrite I. eexists. split; [|reflexivity]. cbn [times]. destruct c; try discriminate P; injection P as <-; reflexivity. }
  destruct Q as (e1 & Q1 & ->). exists {| e_cls := c; e_args := [AText (times (S n) p ++ m)]; e_pool := None |}. auto.
Qed.
Lemma server_changes key rp pr c m e n e1 : c = ServerE \/ c = NoProcessorE \/ c = ClientE -> make key c [AText m] = Ok e -> copies key (S n) e = Ok e1 -> text key rp pr e1 <> text key rp pr e.
Proof.
  intros C M Cp. assert (P : exists p, says c = Some p /\ p <> []) by (destruct C as [->|[->| ->]]; eexists; (split; [reflexivity|discriminate])). destruct P as (p & P & Pn).
  destruct (server_copy key rp pr c p m e (S n) P M) as (x & X1 & _ & X3). rewrite Cp in X1. injection X1 as <-. destruct (server_copy key rp pr c p m e 0 P M) as (y & Y1 & _ & Y3). injection Y1 as <-. rewrite X3, Y3. intros Q. apply (f_equal (@List.length Z)) in Q. cbn [times] in Q. rewrite !app_length in Q. cbn [List.length] in Q. assert (List.length p <> 0%nat) by (destruct p; [contradiction|discriminate]). lia.
Qed.
Lemma pool_text_wrong key rp pr c i m e : of_pool c -> make key c [APool i; AText m] = Ok e -> text key rp pr e <> pool_text key i ++ str ": " ++ m.
Proof. intros C M Q. assert (H : exists r, text key rp pr e = 40 :: r) by (destruct C as [->|[->| ->]]; injection M as <-; eexists; reflexivity). destruct H as (r & H). rewrite H in Q. discriminate Q. Qed.
Lemma pool_copy key c i j m m' e e' n : of_pool c -> make key c [APool i; AText m] = Ok e -> make key c [APool j; AText m'] = Ok e' ->
  exists x, copies key (S n) e = Ok x /\ copies key (S n) e' = Ok x /\ e_pool x = Some ANone.
Proof.
  intros C M M'. set (x := {| e_cls := c; e_args := [ASelf; AText (str "None: None")]; e_pool := Some ANone |}).
  assert (Q : forall y, e_cls y = c -> copies key (S n) y = Ok x).
  { intros y Y. assert (One : forall z, e_cls z = c -> copy key z = Ok x) by (intros z Z; unfold copy; rewrite Z; destruct C as [->|[->| ->]]; reflexivity).
    induction n as [|k IH]; [exact (One y Y)|]. change (copies key (S (S k)) y) with (let! e1 := copies key (S k) y in copy key e1). rewrite IH. apply One. reflexivity. }
  exists x. split; [|split; [|reflexivity]]; apply Q; destruct C as [->|[->| ->]]; [injection M as <-|injection M as <-|injection M as <-|injection M' as <-|injection M' as <-|injection M' as <-]; reflexivity.
Qed.
Lemma value_errors key rp pr c m : of_value c -> exists e, make key c [AText m] = Ok e /\ e_cls e = c /\ text key rp pr e = m /\ e_pool e = None /\ forall n, exists x, copies key (S n) e = Ok x /\ text key rp pr x = str "(None, None)".
Proof.
  intros C. exists {| e_cls := c; e_args := [AText m]; e_pool := None |}. split; [destruct C as [->| ->]; reflexivity|]. split; [reflexivity|]. split; [reflexivity|]. split; [reflexivity|].
  intros n. exists {| e_cls := c; e_args := [ANone; ANone]; e_pool := None |}. split; [|reflexivity].
  assert (One : forall z, e_cls z = c -> copy key z = Ok {| e_cls := c; e_args := [ANone; ANone]; e_pool := None |}) by (intros z Z; unfold copy; rewrite Z; destruct C as [->| ->]; reflexivity).
  induction n as [|k IH]; [refine (One _ _); reflexivity|]. match goal with |- copies key (S (S k)) ?y = _ => change (copies key (S (S k)) y) with (let! e1 := copies key (S k) y in copy key e1) end. rewrite IH. apply One. reflexivity.
Qed.
