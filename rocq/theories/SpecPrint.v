(** What should be printed. *)
From Verif Require Export SpecScope SpecEdit.

(** A line of output. *)
Definition one_line (s : str) : Prop := exists t, s = t ++ [c_nl] /\ c_nl ∉ t.
(** The first [k] nodes met by going Next from [p]; circles are followed. *)
Fixpoint ahead (h : heap) (p : ptr) (k : nat) : list loc :=
  match k, p with
  | Datatypes.S k, Some l => l :: ahead h (next_of h (Some l)) k
  | _, _ => []
  end.
(** A scope in which an interface is declared or mentioned. *)
Definition has_interface (h : heap) (p : scope * list loc) : Prop :=
  sc_kind (fst p) = SType /\ Exists (fun l => kind_of h (Some l) = KInterface) (snd p).
Global Instance has_interface_dec h p : Decision (has_interface h p). Proof. unfold has_interface. apply _. Defined.
