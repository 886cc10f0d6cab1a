(** Property theorems C106: read-only mappings and the methods they inherit. *)
From Coq Require Import Strings.String.
From Verif Require Import PyBase PyDict M_DictOps S_DictOps L_DictOps.

(** ** C106: refuted for each of the three classes, every key and every value: [update] puts
    any value in, and the removing methods take entries away, without an error. *)
Theorem C106_read_only_refuted :
  forall (K V : Type) (E : EqDec K) (c : kind) (k : K) (v : V), ~ read_only K V E c.
Proof. exact not_read_only. Qed.
Print Assumptions C106_read_only_refuted.

Theorem C106_update_changes_refuted :
  forall (K V : Type) (E : EqDec K) (c : kind) (d : dict K V) (k : K) (v : V),
    dget k (fst (dict_op c (Update [(k, v)]) d)) = Some v /\
    snd (dict_op c (Update [(k, v)]) d) = Ok tt.
Proof. exact @update_changes. Qed.
Print Assumptions C106_update_changes_refuted.

Theorem C106_removal_refuted :
  forall (K V : Type) (E : EqDec K) (c : kind) (d : dict K V) (k : K), wf_dict d ->
    dget k (fst (dict_op c (Pop k) d)) = None /\
    dget k (fst (dict_op c (DelItem k) d)) = None /\
    dget k (fst (dict_op c Clear d)) = None.
Proof. exact @pop_removes. Qed.
Print Assumptions C106_removal_refuted.

Theorem C106_popitem_refuted :
  forall (K V : Type) (E : EqDec K) (c : kind) (d : dict K V) (k : K) (v : V),
    wf_dict (d ++ [(k, v)]) ->
    fst (dict_op c Popitem (d ++ [(k, v)])) = d /\ dget k d = None.
Proof. exact @popitem_removes. Qed.
Print Assumptions C106_popitem_refuted.

(** What holds: over any history, a present key keeps its value unless the history has an
    [update] naming it or a removing method; in particular item assignment and [setdefault]
    never change it. *)
Theorem C106_kept_partial :
  forall (K V : Type) (E : EqDec K) (c : kind) (os : list (dictop K V)) (d : dict K V) k v,
    dget k d = Some v -> (forall o, In o os -> ~ overwrites k o) ->
    dget k (dict_ops c os d) = Some v.
Proof. exact @ops_keep. Qed.
Print Assumptions C106_kept_partial.

(** An absent key stays absent unless the history brings it in: by [update], [setdefault], or,
    in the write-once mapping only, by item assignment. *)
Theorem C106_absent_partial :
  forall (K V : Type) (E : EqDec K) (c : kind) (os : list (dictop K V)) (d : dict K V) k,
    dget k d = None -> (forall o, In o os -> ~ brings c k o) ->
    dget k (dict_ops c os d) = None.
Proof. exact @ops_absent. Qed.
Print Assumptions C106_absent_partial.

(** Item assignment itself, class by class. *)
Theorem C106_assignment_partial :
  forall (K V : Type) (E : EqDec K) (d : dict K V) (k : K) (v : V),
    dict_op Frozen (SetItem k v) d = (d, Raise TypeError) /\
    dict_op Header (SetItem k v) d = (d, Ok tt) /\
    (forall v', dget k d = Some v' -> dict_op WriteOnce (SetItem k v) d = (d, Raise KeyError)) /\
    (dget k d = None ->
       snd (dict_op WriteOnce (SetItem k v) d) = Ok tt /\
       dget k (fst (dict_op WriteOnce (SetItem k v) d)) = Some v).
Proof. exact @assignment. Qed.
Print Assumptions C106_assignment_partial.

(** ** Concrete cases *)
Definition hdr : dict pystr pystr := [(str "service", str "a"); (str "uid", str "b")].

Example C106_case :
  wf_dict hdr /\
  dict_ops Header [SetItem (str "service") (str "x"); Setdefault (str "service") (str "y")] hdr = hdr /\
  dget (str "service") (dict_ops Header [Update [(str "service", str "x")]] hdr) = Some (str "x") /\
  dict_ops Frozen [Pop (str "uid"); SetItem (str "uid") (str "c")] hdr = [(str "service", str "a")] /\
  dict_ops WriteOnce [Pop (str "uid"); SetItem (str "uid") (str "c"); SetItem (str "uid") (str "d")] hdr
    = [(str "service", str "a"); (str "uid", str "c")].
Proof.
  split; [|vm_compute; repeat split].
  repeat constructor; cbn; intuition discriminate.
Qed.

(** The hypotheses of the history theorems are met by a history with changes to other keys. *)
Example C106_kept_case :
  let os := [SetItem (str "service") (str "x"); Update [(str "uid", str "z")]; Pop (str "uid")] in
  (forall o, In o os -> ~ overwrites (str "service") o) /\
  dict_ops Header os hdr = [(str "service", str "a")].
Proof.
  split; [|vm_compute; reflexivity].
  intros o [<-|[<-|[<-|[]]]]; cbn; intuition discriminate.
Qed.
