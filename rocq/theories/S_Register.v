(** Vocabulary for C145. *)
From Coq Require Import Strings.String.
From Verif Require Import PyBase PyDict M_Mesh S_Mesh M_Register.
Open Scope nat_scope.

(** the registrations among the posts *)
Definition registrations (l : list post) : list json := map snd (filter (fun p => pystr_eqb (fst p) (str "configs/application")) l).
(** what was given to the constructors, in their order *)
Definition constructors (l : list rop) : list given := flat_map (fun o => match o with RClient g | RListener g => [g] | RUse _ _ => [] end) l.
(** a value that was given and is not empty *)
Definition told (v : option json) : list json :=
  match v with
  | None | Some (JNull | JBool false | JNum Z0 | JStr [] | JArr [] | JObj []) => []
  | Some j => [j]
  end.
Definition says (name : string) (v : option json) : list (pystr * json) := map (pair (str name)) (told v).
(** the document that describes the application *)
Definition described (g : given) : json :=
  JObj (says "appName" (Some (g_app g)) ++ says "dataCenter" (g_center g) ++ says "zone" (g_zone g) ++ says "registryEndPoint" (g_registry g) ++
        says "accessKey" (g_access g) ++ says "secretKey" (g_secret g) ++ says "antShareCloud" (g_cloud g)).
