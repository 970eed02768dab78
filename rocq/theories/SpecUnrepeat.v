(** Vocabulary for C78: joining lists without a repetition at the seam, and which
    slices a write can reach. *)
From Verif Require Export SpecAst Unrepeat.

(** [c] is [a] followed by [b], where the first element of [b] is left out if it is
    the last one of [a]. *)
Inductive joined {T} : list T -> list T -> list T -> Prop :=
| j_left a : joined a [] a
| j_right b : joined [] b b
| j_same a x b : joined (a ++ [x]) (x :: b) (a ++ x :: b)
| j_other a x y b : x <> y -> joined (a ++ [x]) (y :: b) (a ++ x :: y :: b).

(** [c] is [xs] with every run of equal elements cut down to one. *)
Inductive runs_cut {T} : list T -> list T -> Prop :=
| rc_nil : runs_cut [] []
| rc_one x : runs_cut [x] [x]
| rc_same x xs c : runs_cut (x :: xs) c -> runs_cut (x :: x :: xs) c
| rc_other x y xs c : x <> y -> runs_cut (y :: xs) c -> runs_cut (x :: y :: xs) (x :: c).

(** A window that lies within its array (every slice a Go program holds does). *)
Definition window {T} (m : list (list T)) (s : slice) : Prop :=
  sl_len s <= sl_cap s /\
  (sl_cap s = 0 \/ exists a, m !! sl_arr s = Some a /\ sl_off s + sl_cap s <= length a).
(** The elements the slice shows. *)
Definition shows {T} (m : list (list T)) (s : slice) (xs : list T) : Prop :=
  length xs = sl_len s /\
  forall i x, xs !! i = Some x -> exists a, m !! sl_arr s = Some a /\ a !! (sl_off s + i) = Some x.
(** Cell [j] of array [i]. *)
Definition cell {T} (m : list (list T)) (i j : nat) : option T := a ← m !! i; a !! j.
(** Cell [j] of array [i] is one of the first [n] spare cells behind the elements of [s]. *)
Definition spare_cell (s : slice) (n i j : nat) : Prop :=
  i = sl_arr s /\ sl_off s + sl_len s <= j < sl_off s + sl_len s + n /\ j < sl_off s + sl_cap s.
