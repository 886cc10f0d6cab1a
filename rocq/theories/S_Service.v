(** What C131 says about names in requests (M_Service). *)
From Coq Require Import Strings.String.
From Verif Require Import PyBase PyDict M_AioServer M_Service.
Open Scope Z_scope.

(** the class, or one between it and BaseService, defines the method, and the object has no variable of that name *)
Definition published (k : pyclass) (m : pystr) : Prop := In m (k_methods k) /\ m <> str "ctx" /\ ~ In m (k_variables k).
(** names that the objects have besides: variables, and what every Python object has *)
Definition incidental (k : pyclass) (m : pystr) : Prop := m = str "ctx" \/ In m (k_variables k) \/ (~ In m (k_methods k) /\ (m = str "__init__" \/ In m object_names)).
(** calling it with a bytes object returns something: None, another service object or NotImplemented *)
Definition silent (k : pyclass) (m : pystr) : Prop := m <> str "ctx" /\ ~ In m (k_variables k) /\ ~ In m (k_methods k) /\
  In m (map str ["__init__"; "__class__"; "__eq__"; "__ge__"; "__gt__"; "__le__"; "__lt__"; "__ne__"; "__subclasshook__"]%string).
(** everything registered on a listener, from the beginning or later, is one of these classes *)
Definition only_classes (ks : list pyclass) (reg : registry) (l : list sstep) : Prop :=
  (forall n x, dget n reg = Some x -> exists k, In k ks /\ x = service_of k) /\ (forall n x, In (Register n x) l -> exists k, In k ks /\ x = service_of k).
