(** Property theorems C125: what the mesh agent knows of the listeners of one process, over all histories of making listeners,
    registering interfaces, publishing and unpublishing. [known], [unknown] and [made] are in S_Publish; [ans n] is the answer of
    the agent to the n-th post of the process. *)
From Coq Require Import Strings.String.
From Verif Require Import PyBase PyDict M_Mesh S_Mesh M_Publish S_Publish L_Publish.

(** ** C125. The listener could register its application when it was made, and publish() returns: every interface registered so
    far, on whichever listener, is known to the agent on the port of this listener; after unpublish() none is. *)
Theorem C125_publish_partial : forall ans l i port app, made ans l i port app True -> snd (p_step ans (Publish i) (p_run ans l)) = Ok tt ->
  forall j s, In (Register j s) l -> known ans (p_log (p_run ans (l ++ [Publish i]))) s port app.
Proof. exact after_publish. Qed.
Print Assumptions C125_publish_partial.
Theorem C125_unpublish_partial : forall ans l i port app, made ans l i port app True -> snd (p_step ans (Unpublish i) (p_run ans l)) = Ok tt ->
  forall j s, In (Register j s) l -> unknown ans (p_log (p_run ans (l ++ [Unpublish i]))) s.
Proof. exact after_unpublish. Qed.
Print Assumptions C125_unpublish_partial.

(** A listener made while the agent did not answer (or refused) never tells it anything, however long the agent has been back;
    publish() and unpublish() return as if they had. *)
Theorem C125_without_agent_refuted : forall ans l i port app, made ans l i port app False ->
  p_step ans (Publish i) (p_run ans l) = (p_run ans l, Ok tt) /\ p_step ans (Unpublish i) (p_run ans l) = (p_run ans l, Ok tt).
Proof. exact without_agent. Qed.
Print Assumptions C125_without_agent_refuted.
Theorem C125_never_known_refuted : forall ans l, (forall i port app, ~ made ans l i port app True) -> forall s port app, ~ known ans (p_log (p_run ans l)) s port app.
Proof. exact never_known. Qed.
Print Assumptions C125_never_known_refuted.

(** The interfaces of other listeners: publish() announces them on this listener's port instead of theirs, and unpublish()
    withdraws them. *)
Theorem C125_others_moved_refuted : forall ans l i port app, made ans l i port app True -> snd (p_step ans (Publish i) (p_run ans l)) = Ok tt ->
  forall j s port' app', j <> i -> In (Register j s) l -> known ans (p_log (p_run ans (l ++ [Publish i]))) s port' app' -> port' = port /\ app' = app.
Proof. intros ans l i port app M R j s port' app' _ I K. exact (known_one _ _ _ _ _ _ _ K (after_publish ans l i port app M R j s I)). Qed.
Print Assumptions C125_others_moved_refuted.
Theorem C125_others_withdrawn_refuted : forall ans l i port app, made ans l i port app True -> snd (p_step ans (Unpublish i) (p_run ans l)) = Ok tt ->
  forall j s port' app', j <> i -> In (Register j s) l -> ~ known ans (p_log (p_run ans (l ++ [Unpublish i]))) s port' app'.
Proof. intros ans l i port app M R j s port' app' _ I K. exact (known_not_unknown _ _ _ _ _ K (after_unpublish ans l i port app M R j s I)). Qed.
Print Assumptions C125_others_withdrawn_refuted.

(** Nothing else changes what the agent knows, and publish() and unpublish() change nothing about interfaces that are not
    registered; what is known was published by a listener with that port and application. *)
Theorem C125_nothing_else : forall ans l o s, (forall i, o = Publish i \/ o = Unpublish i -> ~ exists j, In (Register j s) l) ->
  forall port app, known ans (p_log (p_run ans (l ++ [o]))) s port app <-> known ans (p_log (p_run ans l)) s port app.
Proof.
  intros ans l o s N port app. split; intros (d & m & L & H); exists d, m; (split; [|exact H]); apply (nothing_else ans l o s _ N); exact L.
Qed.
Print Assumptions C125_nothing_else.
Theorem C125_only_published : forall ans l s port app, known ans (p_log (p_run ans l)) s port app ->
  exists i j, made ans l i port app True /\ In (Publish i) l /\ In (Register j s) l.
Proof. exact only_published. Qed.
Print Assumptions C125_only_published.

(** the agent is down for the first post; two more listeners are made, and publish in turn *)
Definition yes125 : answer := Answer 200 (Some (JObj [(str "success", JBool true)])).
Definition ans125 (n : nat) : answer := match n with O => NoAnswer | _ => yes125 end.
Definition info125 : appinfo := {| ai_appName := JStr (str "app"); ai_dataCenter := JNull; ai_zone := JNull; ai_registryEndPoint := JNull; ai_accessKey := JNull; ai_secretKey := JNull; ai_antShareCloud := JBool false |}.
Definition l125 : list pop := [New 1 (str "app") info125; Register 0 (str "A"); Publish 0; New 2 (str "app") info125; Register 1 (str "B"); Publish 1; New 3 (str "app") info125].
Example C125_case : made ans125 l125 0 1 (str "app") False /\ made ans125 l125 1 2 (str "app") True /\ made ans125 l125 2 3 (str "app") True /\
  snd (p_step ans125 (Publish 1) (p_run ans125 l125)) = Ok tt /\ snd (p_step ans125 (Unpublish 2) (p_run ans125 l125)) = Ok tt /\
  map fst (p_log (p_run ans125 l125)) = [EP_app; EP_app; EP_pub; EP_pub; EP_app] /\
  known ans125 (p_log (p_run ans125 l125)) (str "A") 2 (str "app") /\ ~ known ans125 (p_log (p_run ans125 (l125 ++ [Unpublish 2]))) (str "A") 2 (str "app").
Proof.
  assert (Y : accepted yes125) by (eexists; split; reflexivity).
  assert (M : made ans125 l125 2 3 (str "app") True).
  { exists [New 1 (str "app") info125; Register 0 (str "A"); Publish 0; New 2 (str "app") info125; Register 1 (str "B"); Publish 1], info125, []. split; [reflexivity|]. split; [reflexivity|]. split; [auto|intros _; exact Y]. }
  split. { exists [], info125, (tl l125). split; [reflexivity|]. split; [reflexivity|]. split; [intros (d & H & _); discriminate H|intros []]. }
  split. { exists [New 1 (str "app") info125; Register 0 (str "A"); Publish 0], info125, [Register 1 (str "B"); Publish 1; New 3 (str "app") info125]. split; [reflexivity|]. split; [reflexivity|]. split; [auto|intros _; exact Y]. }
  split; [exact M|]. split; [vm_compute; reflexivity|]. split; [vm_compute; reflexivity|]. split; [vm_compute; reflexivity|]. split.
  - assert (L : p_log (p_run ans125 l125) = [(EP_app, appinfo_doc info125); (EP_app, appinfo_doc info125); (EP_pub, publish_doc 2 (str "app") (str "A")); (EP_pub, publish_doc 2 (str "app") (str "B")); (EP_app, appinfo_doc info125)]) by (vm_compute; reflexivity).
    rewrite L. clear L. apply doc_known. exists 2%nat. split; [reflexivity|]. split; [apply pub_names; reflexivity|]. split; [exact Y|].
    intros n y H E A. destruct n as [|[|[|[|[|n]]]]]; try lia; cbn [nth_error] in E.
    + apply Some_inj in E. subst y. apply (pub_names 2 (str "app")) in A. vm_compute in A. discriminate.
    + apply Some_inj in E. subst y. destruct (ep_about (EP_app, appinfo_doc info125) (str "A") (or_introl eq_refl) A).
    + destruct n; discriminate.
  - assert (I : In (Register 0 (str "A")) l125) by (right; left; reflexivity).
    exact (C125_others_withdrawn_refuted ans125 l125 2 3 (str "app") M eq_refl 0%nat (str "A") 2 (str "app") ltac:(discriminate) I).
Qed.
