(** Model of anthunder/helpers/singleton.py:26-32 and of the classes that name it: MeshClient (mesh/mesh_client.py:71),
    Client (client/client.py:45), AioClient (client/aio_client.py:48). Calling a class makes an object. What a call does is
    given by the metaclass of the class. In Python 3 the attribute [__metaclass__] of the body of a class means nothing
    (the metaclass is given by a keyword of the class statement, or inherited), so the metaclass of the three classes is
    [type]. Objects are numbered in the order in which they are constructed; a constructor may raise. [_instances] is one
    dict for all classes (line 27). Calls by different threads interleave; single operations on the dict are atomic. *)
From Verif Require Import PyBase PyDict.

Inductive metaclass := TypeMeta | SingletonMeta.
Definition klass := Z.                                  (* which class *)
(** the metaclass of a class without base classes that have one, whose body sets [__metaclass__] *)
Definition metaclass_of_body (dunder_metaclass : option metaclass) : metaclass := TypeMeta.
(** line 71 of mesh_client.py, 45 of client.py, 48 of aio_client.py *)
Definition client_class : metaclass := metaclass_of_body (Some SingletonMeta).

(** where a call of a class is *)
Inductive gpc :=
| GCheck                     (* line 30 *)
| GMake                      (* line 31, the call of type.__call__ *)
| GStore (x : nat)           (* line 31, the assignment *)
| GLoad                      (* line 32 *)
| GEnd (r : res nat).
Record gcall := { g_class : klass; g_pc : gpc }.
Record gst := { g_instances : dict klass nat; g_made : nat; g_calls : list gcall }.
Definition ginit : gst := {| g_instances := []; g_made := 0; g_calls := [] |}.
Inductive gstep :=
| GCall (c : klass)                      (* some thread calls the class *)
| GRun (i : nat) (ok : bool).            (* the i-th call goes on; [ok]: the constructor returns *)

Fixpoint gset (i : nat) (p : gpc) (l : list gcall) : list gcall :=
  match l, i with
  | [], _ => []
  | k :: r, O => {| g_class := g_class k; g_pc := p |} :: r
  | k :: r, S i => k :: gset i p r
  end.
Definition construct (m : metaclass) (i : nat) (ok : bool) (s : gst) : gst :=
  if ok then {| g_instances := g_instances s; g_made := S (g_made s); g_calls := gset i (match m with TypeMeta => GEnd (Ok (g_made s)) | SingletonMeta => GStore (g_made s) end) (g_calls s) |}
  else {| g_instances := g_instances s; g_made := g_made s; g_calls := gset i (GEnd (Raise OtherError)) (g_calls s) |}.
Definition goto (i : nat) (p : gpc) (s : gst) : gst := {| g_instances := g_instances s; g_made := g_made s; g_calls := gset i p (g_calls s) |}.
Definition g_step (meta : klass -> metaclass) (o : gstep) (s : gst) : gst :=
  match o with
  | GCall c => {| g_instances := g_instances s; g_made := g_made s; g_calls := g_calls s ++ [{| g_class := c; g_pc := match meta c with TypeMeta => GMake | SingletonMeta => GCheck end |}] |}
  | GRun i ok =>
      match nth_error (g_calls s) i with
      | Some k =>
          match g_pc k with
          | GCheck => goto i (if dmem (g_class k) (g_instances s) then GLoad else GMake) s
          | GMake => construct (meta (g_class k)) i ok s
          | GStore x => {| g_instances := dset (g_class k) x (g_instances s); g_made := g_made s; g_calls := gset i GLoad (g_calls s) |}
          | GLoad => goto i (GEnd (match dget (g_class k) (g_instances s) with Some x => Ok x | None => Raise KeyError end)) s
          | GEnd _ => s
          end
      | None => s
      end
  end.
Definition g_run (meta : klass -> metaclass) (l : list gstep) : gst := fold_left (fun s o => g_step meta o s) l ginit.
