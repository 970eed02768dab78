(** extractor.go: the tokeniser. *)
From Verif Require Export Node.

(** extractor.go:25-83.  The extractors are package-level pointers compared by
    identity (they are map keys), so they are modelled as an enumeration with a
    configuration record. *)
Inductive ext := ECommon | EParen | ECurly | EComment | EInner | EString | EMulti.
#[global] Instance ext_eq_dec : EqDecision ext.
Proof. solve_decision. Defined.

(** extractor.go:111-118 [type extractor struct] *)
Record ext_conf := mkExt
  { e_kind : kind; e_open : bool; e_close : bool; e_sep : cset ascii;
    e_ret : str; e_skip : str }.

(** extractor.go:26-79 *)
Definition xconf (e : ext) : ext_conf :=
  match e with
  | ECommon => mkExt KNone false false SeparatorCharset [] []
  | EParen => mkExt KRaw false false SeparatorCharset $")" []
  | ECurly => mkExt KRaw false false SeparatorCharset $"}" []
  | EComment => mkExt KComment true false None [c_nl] []
  | EInner => mkExt KComment true true None $"*/" []
  | EString => mkExt KString true true None [c_dq] [c_bs; c_dq]
  | EMulti => mkExt KString true true None [c_bq] []
  end.

(** extractor.go:86-93 [_commonDeeperExtract], a Go map: its iteration order is
    unspecified; this is its set of entries in source order. *)
Definition deeper_table : list (str * ext) :=
  [ ($"(", EParen); ($"{", ECurly); ($"//", EComment); ($"/*", EInner);
    ([c_dq], EString); ([c_bq], EMulti) ].

(** extractor.go:81-85, 234-236 [DeeperExtract]; [None] is the nil map. [ord]
    is the order in which this iteration of the map yields its entries. *)
Definition deeper (ord : list (str * ext)) (e : ext) : option (list (str * ext)) :=
  match e with
  | ECommon | EParen | ECurly => Some ord
  | _ => None
  end.

(** extractor.go:98-109 [PrefixFit] *)
Fixpoint prefix_fit_in (s : str) (l : list (str * ext)) : option ext :=
  match l with
  | [] => None
  | (k, v) :: r => if has_prefix s k then Some v else prefix_fit_in s r
  end.
Definition prefix_fit (de : option (list (str * ext))) (s : str) : option ext :=
  match de with None => None | Some l => prefix_fit_in s l end.

(** extractor.go:226-232 [Kind] *)
Definition ext_kinds (e : ext) : list kind :=
  if kind_eqb (e_kind (xconf e)) KRaw then [] else [e_kind (xconf e)].

(** The variables shared by all nested calls of Run: the heap, [*buf], [*i],
    [*line] (extractor.go:120). *)
Record xst := mkX { x_heap : heap; x_buf : str; x_i : nat; x_line : Z }.
(** The local variables of one call of Run: [head], [cur], [bufLine]
    (extractor.go:125-130). *)
Record xloc := mkXL { l_head : ptr; l_cur : ptr; l_bufLine : Z }.

(** extractor.go:132-150 [insertNode] *)
Definition insert_node (x : xst) (lc : xloc) (n : ptr) : res (xst * xloc) :=
  match n with
  | None => Ok (x, lc)
  | Some _ =>
    let head := match l_head lc with None => n | Some _ => l_head lc end in
    let h := match l_cur lc with
             | Some _ => fst (replace_next (x_heap x) (l_cur lc) n)
             | None => x_heap x
             end in
    (* cur = n.IterNext(func(n) bool { return n.Next() != nil }) *)
    res_bind (last_of h n) (fun cur =>
    Ok (mkX h (x_buf x) (x_i x) (x_line x), mkXL head cur (l_bufLine lc)))
  end.

(** insertNode(NewNode(line, text, kinds...)) *)
Definition insert_new (x : xst) (lc : xloc) (line : Z) (text : str) (kinds : list kind) : res (xst * xloc) :=
  let '(h, n) := new_node (x_heap x) line text kinds in
  insert_node (mkX h (x_buf x) (x_i x) (x_line x)) lc (Some n).

(** extractor.go:152-163 [pushNode] *)
Definition push_node (x : xst) (lc : xloc) (useLine : bool) (kinds : list kind) : res (xst * xloc) :=
  match x_buf x with
  | [] => Ok (x, lc)
  | _ :: _ =>
    res_bind (insert_new x lc (if useLine then x_line x else l_bufLine lc) (x_buf x) kinds)
      (fun '(x, lc) =>
         Ok (mkX (x_heap x) [] (x_i x) (x_line x), mkXL (l_head lc) (l_cur lc) (x_line x)))
  end.

(** buf.WriteByte(char) *)
Definition write_byte (x : xst) (c : ascii) : xst :=
  mkX (x_heap x) (x_buf x ++ [c]) (x_i x) (x_line x).
(** extractor.go:165-169 [lineStep] *)
Definition line_step (x : xst) (c : ascii) : xst :=
  mkX (x_heap x) (x_buf x) (x_i x) (if bool_decide (c = c_nl) then x_line x + 1 else x_line x)%Z.
(** [*i++] *)
Definition i_step (x : xst) : xst := mkX (x_heap x) (x_buf x) (S (x_i x)) (x_line x).

(** extractor.go:120-224 [Run].  One unit of fuel per loop iteration or nested
    call.  [ord i] is the order of the map iteration done at index [i].
    [text !! i = None] is the loop exit [*i >= len(text)]. *)
Fixpoint run (fuel : nat) (ord : nat -> list (str * ext)) (text : str) (e : ext)
    (x : xst) (lc : xloc) : res (xst * ptr) :=
  match fuel with
  | O => OutOfFuel
  | S f =>
    match text !! x_i x with
    | None =>                                             (* 222-223 *)
      res_bind (push_node x lc true []) (fun '(x, lc) => Ok (x, l_head lc))
    | Some char =>
      match prefix_fit (deeper (ord (x_i x)) e) (drop (x_i x) text) with
      | Some ee =>                                        (* 174-189 *)
        res_bind (push_node x lc true []) (fun '(x, lc) =>
        res_bind (if e_open (xconf ee) then Ok (write_byte x char, lc)
                  else insert_new x lc (l_bufLine lc) (string_of_byte char) [])
          (fun '(x, lc) =>
        let x := i_step x in
        res_bind (run f ord text ee x (mkXL None None (x_line x))) (fun '(x, ns) =>
        res_bind (insert_node x lc ns) (fun '(x, lc) =>
        run f ord text e (i_step x) lc))))
      | None =>
        let trailing := take (S (x_i x)) text in
        if negb (Nat.eqb (length (e_skip (xconf e))) 0) && has_suffix trailing (e_skip (xconf e))
        then                                              (* 192-197 *)
          run f ord text e (i_step (line_step (write_byte x char) char)) lc
        else if negb (Nat.eqb (length (e_ret (xconf e))) 0) && has_suffix trailing (e_ret (xconf e))
        then                                              (* 199-210 *)
          res_bind (if e_close (xconf e)
                    then push_node (write_byte x char) lc false (ext_kinds e)
                    else res_bind (push_node x lc true (ext_kinds e)) (fun '(x, lc) =>
                         insert_new x lc (x_line x) (string_of_byte char) []))
            (fun '(x, lc) => Ok (line_step x char, l_head lc))
        else if contain (e_sep (xconf e)) char
        then                                              (* 212-215 *)
          res_bind (push_node x lc true []) (fun '(x, lc) =>
          res_bind (insert_new x lc (x_line x) (string_of_byte char) []) (fun '(x, lc) =>
          run f ord text e (i_step (line_step x char)) lc))
        else                                              (* 216-218 *)
          run f ord text e (i_step (line_step (write_byte x char) char)) lc
      end
    end
  end.

(** extractor.go:12-23 [extract] (its error result is always nil). *)
Definition extract (ord : nat -> list (str * ext)) (h : heap) (text : str) : res (heap * ptr) :=
  res_bind (run (S (length text)) ord text ECommon (mkX h [] 0 0%Z) (mkXL None None 0%Z))
    (fun '(x, n) => Ok (x_heap x, n)).

(** The order in which the table is written in the source. *)
Definition src_ord : nat -> list (str * ext) := fun _ => deeper_table.
