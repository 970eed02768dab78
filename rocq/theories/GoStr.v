(** Go strings and byte slices, and the pieces of the Go language and of the
    packages "strings", "unicode/utf8" and "fmt" that the code relies on.

    A Go string or []byte is a finite sequence of bytes: [list ascii]
    (Coq's [ascii] is exactly an 8-bit byte). *)
From Coq Require Export Ascii String ZArith NArith Bool Lia.
From stdpp Require Export prelude.

Open Scope nat_scope.
Notation str := (list ascii) (only parsing).

(** A literal: [ $"func" ] is the byte sequence of the ASCII literal. *)
Notation "$ s" := (list_ascii_of_string s%string) (at level 0, s at level 0, only parsing).

Definition chr (n : nat) : ascii := ascii_of_nat n.
Definition c_nl : ascii := chr 10.   (* '\n' *)
Definition c_cr : ascii := chr 13.   (* '\r' *)
Definition c_tab : ascii := chr 9.   (* '\t' *)
Definition c_sp : ascii := chr 32.   (* ' ' *)
Definition c_dq : ascii := chr 34.   (* double quote *)
Definition c_bq : ascii := chr 96.   (* back quote *)
Definition c_bs : ascii := chr 92.   (* backslash *)

#[global] Instance ascii_eq_dec : EqDecision ascii := ascii_dec.

(** Equality tests on strings, as used by Go's [==] and [switch] on strings. *)
Definition str_eqb (a b : str) : bool := bool_decide (a = b).

(** Membership in a literal list, Go's [switch x { case a, b: ... }]. *)
Definition mem_byte (c : ascii) (l : list ascii) : bool := bool_decide (c ∈ l).
Definition mem_str (s : str) (l : list str) : bool := bool_decide (s ∈ l).

(** unicode/utf8 decoding width, as used by Go's [for i := range s] over a
    string (Go specification, "For statements with range clause": an invalid
    encoding advances by one byte).  Acceptance table: Go's
    unicode/utf8/utf8.go, variables [first] and [acceptRanges].  *)
Definition in_range (lo hi : N) (c : ascii) : bool :=
  (lo <=? N_of_ascii c)%N && (N_of_ascii c <=? hi)%N.
Definition is_cont (c : ascii) : bool := in_range 128 191 c.

(** [lead c] is [Some (size, lo, hi)]: the size announced by a multi-byte lead
    byte and the accepted range of its second byte. *)
Definition lead (c : ascii) : option (nat * N * N) :=
  let n := N_of_ascii c in
  if (n <? 194)%N then None               (* ASCII, continuation, C0, C1 *)
  else if (n <=? 223)%N then Some (2, 128%N, 191%N)
  else if (n =? 224)%N then Some (3, 160%N, 191%N)
  else if (n =? 237)%N then Some (3, 128%N, 159%N)
  else if (n <=? 239)%N then Some (3, 128%N, 191%N)
  else if (n =? 240)%N then Some (4, 144%N, 191%N)
  else if (n <=? 243)%N then Some (4, 128%N, 191%N)
  else if (n =? 244)%N then Some (4, 128%N, 143%N)
  else None.

(** Width in bytes of the first rune of a non-empty string. *)
Definition rune_width (s : str) : nat :=
  match s with
  | [] => 0
  | c0 :: r =>
    match lead c0 with
    | None => 1
    | Some (sz, lo, hi) =>
      match r with
      | c1 :: r1 =>
        if negb (in_range lo hi c1) then 1
        else if Nat.eqb sz 2 then 2
        else match r1 with
             | c2 :: r2 =>
               if negb (is_cont c2) then 1
               else if Nat.eqb sz 3 then 3
               else match r2 with
                    | c3 :: _ => if is_cont c3 then 4 else 1
                    | [] => 1
                    end
             | [] => 1
             end
      | [] => 1
      end
    end
  end.

(** The indices [i] produced by [for i := range s] on a string [s]. *)
Fixpoint range_pos_from (pos skip : nat) (s : str) : list nat :=
  match s with
  | [] => []
  | c :: r =>
    match skip with
    | S k => range_pos_from (S pos) k r
    | O => pos :: range_pos_from (S pos) (rune_width (c :: r) - 1) r
    end
  end.
Definition range_pos (s : str) : list nat := range_pos_from 0 0 s.

(** The bytes [s[i]] seen by [for i := range s { ... s[i] ... }]. *)
Fixpoint range_bytes_from (skip : nat) (s : str) : list ascii :=
  match s with
  | [] => []
  | c :: r =>
    match skip with
    | S k => range_bytes_from k r
    | O => c :: range_bytes_from (rune_width (c :: r) - 1) r
    end
  end.
Definition range_bytes (s : str) : list ascii := range_bytes_from 0 s.

(** Go's conversion [string(b)] of a byte: the UTF-8 encoding of the code
    point with that number (so two bytes from 0x80 on). *)
Definition string_of_byte (c : ascii) : str :=
  let n := N_of_ascii c in
  if (n <? 128)%N then [c]
  else [ascii_of_N (192 + n / 64); ascii_of_N (128 + n mod 64)].

(** strings.Count(s, "\n") *)
Definition count_nl (s : str) : Z :=
  Z.of_nat (length (filter (fun c => c = c_nl) s)).

(** strings.Join(ss, "") *)
Definition join (ss : list str) : str := concat ss.

(** strings.ReplaceAll(s, old, new) for a one-byte [old] (the only use). *)
Definition replace_all (old : ascii) (new : str) (s : str) : str :=
  flat_map (fun c => if bool_decide (c = old) then new else [c]) s.

(** fmt's %d for an int. *)
Definition digit (n : N) : ascii := ascii_of_N (48 + n).
Fixpoint dec_fuel (fuel : nat) (n : N) (acc : str) : str :=
  match fuel with
  | O => acc
  | S f => let acc' := digit (n mod 10) :: acc in
           if (n / 10 =? 0)%N then acc' else dec_fuel f (n / 10) acc'
  end.
Definition dec_N (n : N) : str := dec_fuel (S (N.to_nat (N.log2 n))) n [].
Definition dec_Z (z : Z) : str :=
  if (z <? 0)%Z then "-"%char :: dec_N (Z.abs_N z) else dec_N (Z.abs_N z).

(** Result of a computation that may panic or fail to terminate.  [OutOfFuel]
    is never a normal result: every theorem about a loop either proves that
    enough fuel gives [Ok], or is about divergence itself. *)
Inductive res (A : Type) : Type :=
| Ok (a : A)
| Panic
| OutOfFuel.
Arguments Ok {A} a.
Arguments Panic {A}.
Arguments OutOfFuel {A}.

Definition res_bind {A B} (m : res A) (f : A -> res B) : res B :=
  match m with Ok a => f a | Panic => Panic | OutOfFuel => OutOfFuel end.
