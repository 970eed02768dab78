(** The operator == of Go, as the language specification has it. *)
From Verif Require Export Assert.

(** [a == b] is true: the same type and ...; NaN is not equal to anything. *)
Inductive equal_vals : gval -> gval -> Prop :=
| ev_basic k n p : equal_vals (VBasic k n p) (VBasic k n p)
| ev_float k n x : equal_vals (VFloat k n (Some x)) (VFloat k n (Some x))
| ev_ref k n a : equal_vals (VRef k n a) (VRef k n a)
| ev_array n e vs us : Forall2 equal_vals vs us -> equal_vals (VArray n e vs) (VArray n e us)
| ev_struct n vs us : Forall2 equal_vals vs us -> equal_vals (VStruct n vs) (VStruct n us)
| ev_nil n : equal_vals (VIface n None) (VIface n None)
| ev_iface n v u : equal_vals v u -> equal_vals (VIface n (Some v)) (VIface n (Some u)).
Definition equal_any (a b : any) : Prop :=
  match a, b with None, None => True | Some v, Some u => equal_vals v u | _, _ => False end.

(** Values as they exist: the elements of an array have its element type, and an
    interface never holds an interface. *)
Definition no_iface (v : gval) : Prop := match v with VIface _ _ => False | _ => True end.
Inductive well_typed : gval -> Prop :=
| wt_basic k n p : well_typed (VBasic k n p)
| wt_float k n x : well_typed (VFloat k n x)
| wt_ref k n a : well_typed (VRef k n a)
| wt_array n e vs : Forall (fun v => well_typed v /\ type_of v = e) vs -> well_typed (VArray n e vs)
| wt_struct n vs : Forall well_typed vs -> well_typed (VStruct n vs)
| wt_nil n : well_typed (VIface n None)
| wt_iface n v : well_typed v -> no_iface v -> well_typed (VIface n (Some v)).
Definition well_typed_any (a : any) : Prop := match a with None => True | Some v => well_typed v /\ no_iface v end.

(** Nothing in the value is a map, a slice or a function. *)
Inductive plain : gval -> Prop :=
| pl_basic k n p : plain (VBasic k n p)
| pl_float k n x : plain (VFloat k n x)
| pl_ref k n a : k = RPtr \/ k = RChan \/ k = RUnsafe -> plain (VRef k n a)
| pl_array n e vs : comparable e = true -> Forall plain vs -> plain (VArray n e vs)
| pl_struct n vs : Forall plain vs -> plain (VStruct n vs)
| pl_nil n : plain (VIface n None)
| pl_iface n v : plain v -> plain (VIface n (Some v)).
(** No float in it is NaN. *)
Inductive no_nan : gval -> Prop :=
| nn_basic k n p : no_nan (VBasic k n p)
| nn_float k n x : no_nan (VFloat k n (Some x))
| nn_ref k n a : no_nan (VRef k n a)
| nn_array n e vs : Forall no_nan vs -> no_nan (VArray n e vs)
| nn_struct n vs : Forall no_nan vs -> no_nan (VStruct n vs)
| nn_nil n : no_nan (VIface n None)
| nn_iface n v : no_nan v -> no_nan (VIface n (Some v)).
