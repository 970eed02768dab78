(** Specification of UTF-8 (RFC 3629), and of the positions at which Go's range
    clause over a string stops. *)
From Verif Require Export GoStr.

(** Unicode scalar values and their encodings. *)
Definition scalar (cp : N) : Prop := (cp < 0xD800 \/ 0xE000 <= cp < 0x110000)%N.
Definition encode (cp : N) : list N :=
  (if cp <? 0x80 then [cp]
   else if cp <? 0x800 then [0xC0 + cp / 64; 0x80 + cp mod 64]
   else if cp <? 0x10000 then [0xE0 + cp / 4096; 0x80 + cp / 64 mod 64; 0x80 + cp mod 64]
   else [0xF0 + cp / 262144; 0x80 + cp / 4096 mod 64; 0x80 + cp / 64 mod 64; 0x80 + cp mod 64])%N.
(** The bytes [p] encode a character. *)
Definition encodes (p : str) (cp : N) : Prop := scalar cp /\ map N_of_ascii p = encode cp.
(** [rune_starts i s js]: where the characters of [s] start, if [s] itself starts
    at [i]; a byte with which no encoded character starts counts for itself. *)
Inductive rune_starts : nat -> str -> list nat -> Prop :=
| rs_nil i : rune_starts i [] []
| rs_char i p cp s js : encodes p cp -> rune_starts (i + length p) s js -> rune_starts i (p ++ s) (i :: js)
| rs_byte i c s js : (forall p cp, encodes p cp -> ~ p `prefix_of` (c :: s)) -> rune_starts (S i) s js -> rune_starts i (c :: s) (i :: js).
