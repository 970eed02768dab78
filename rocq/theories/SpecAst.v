(** Specification vocabulary for asts: texts of scopes, package names, decimal
    numbers, slices that do not interfere. *)
From Verif Require Export SpecScope Ast.

(** Iterating from the scope's node visits the nodes [ls]. *)
Definition scope_nodes (h : heap) (sc : scope) (ls : list loc) : Prop :=
  sc_node sc = head ls /\ exists before, chain h (before ++ ls).
(** The text of some nodes. *)
Definition text_at (h : heap) (ls : list loc) : str := concat (map (fun l => text_of h (Some l)) ls).
(** [scs] are scopes (not nil) and [lss] their nodes. *)
Definition all_nodes (h : heap) (scs : list (option scope)) (lss : list (list loc)) : Prop :=
  Forall2 (fun o ls => exists sc, o = Some sc /\ scope_nodes h sc ls) scs lss.

(** [l] is the first Raw node after a package keyword in [ls]. *)
Definition named_by (h : heap) (ls : list loc) (l : loc) : Prop :=
  exists xs ys, ls = xs ++ l :: ys /\ kind_of h (Some l) = KRaw /\
    (exists x, x ∈ xs /\ kind_of h (Some x) = KPackage) /\
    forall us x vs y ws, xs = us ++ x :: vs ++ y :: ws ->
      kind_of h (Some x) = KPackage -> kind_of h (Some y) <> KRaw.

(** Decimal numbers. *)
Definition digit_value (c : ascii) : N := (N_of_ascii c - 48)%N.
Definition digits_value (s : str) : N := fold_left (fun a c => 10 * a + digit_value c)%N s 0%N.
Definition denotes (s : str) (z : Z) : Prop :=
  (is_number s /\ z = Z.of_N (digits_value s)) \/
  exists t, s = "-"%char :: t /\ is_number t /\ z = (- Z.of_N (digits_value t))%Z.
(** The description starts with the number [z] and a space. *)
Definition shows_line (d : str) (z : Z) : Prop :=
  exists s rest, d = s ++ c_sp :: rest /\ denotes s z.

(** The slice lies within its array. *)
Definition slice_ok (m : arrays) (s : slice) : Prop :=
  sl_len s <= sl_cap s /\ (sl_cap s = 0 \/ sl_arr s < length m /\ sl_off s + sl_cap s <= length (arr_of m s)).
(** [n] elements written at the end of [s] are not elements of [s']. *)
Definition apart (s : slice) (n : nat) (s' : slice) : Prop :=
  sl_arr s' <> sl_arr s \/ sl_off s' + sl_len s' <= sl_off s + sl_len s \/ sl_off s + sl_len s + n <= sl_off s' \/
  n = 0 \/ sl_len s' = 0.

(** The path that is really used for a file name. *)
Inductive go_file (file : str) : str -> Prop :=
| gf_has : $".go" `suffix_of` file -> go_file file file
| gf_add : ~ $".go" `suffix_of` file -> go_file file (file ++ $".go").

(** [l] is the first node of kind [k] in [ls]. *)
Definition first_of_kind (h : heap) (ls : list loc) (k : kind) (l : loc) : Prop :=
  exists xs ys, ls = xs ++ l :: ys /\ kind_of h (Some l) = k /\ forall x, x ∈ xs -> kind_of h (Some x) <> k.
Definition none_of_kind (h : heap) (ls : list loc) (k : kind) : Prop := forall x, x ∈ ls -> kind_of h (Some x) <> k.
(** The text of the last node, empty if there is none. *)
Definition last_text (h : heap) (ls : list loc) : str := match last ls with Some l => text_of h (Some l) | None => [] end.
