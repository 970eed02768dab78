(** The upstream unit tests, run on the model.  These are checks of the model
    against the expectations written down by the authors of the code, not
    proofs of anything. *)
From Verif Require Import SpecAst P_Lex P_Ast Reset Scope Trie.

(** What iterating from [p] forwards (backwards) shows. *)
Definition texts_next (h : heap) (p : ptr) : res (list str) :=
  res_bind (scan_next h p (fun l a => (a ++ [text_of h (Some l)], true)) []) (fun r => Ok (fst r)).
Definition texts_prev (h : heap) (p : ptr) : res (list str) :=
  res_bind (scan_prev h p (fun l a => (a ++ [text_of h (Some l)], true)) []) (fun r => Ok (fst r)).
Definition is_next h p (ts : list string) : Prop := texts_next h p = Ok (map list_ascii_of_string ts).
Definition is_prev h p (ts : list string) : Prop := texts_prev h p = Ok (map list_ascii_of_string ts).
Definition five : heap := fst (new_nodes [] 0 [$"1"; $"2"; $"3"; $"4"; $"5"]).
Definition ten : heap := fst (new_nodes five 0 [$"-1"; $"-2"; $"-3"; $"-4"; $"-5"]).
Ltac run := vm_compute; repeat split; reflexivity.

(** node_test.go TestNewNode *)
Example t_new_nodes : let h := fst (new_nodes [] 10 [$"1"; $"2"; $"3"; $"4"; $"5"; $"6"]) in
  is_next h (Some 0) ["1"; "2"; "3"; "4"; "5"; "6"]%string /\ is_prev h (Some 0) ["1"]%string /\
  is_next h (Some 5) ["6"]%string /\ is_prev h (Some 5) ["6"; "5"; "4"; "3"; "2"; "1"]%string /\ map n_line h = [10; 10; 10; 10; 10; 10]%Z.
Proof. run. Qed.
(** node_test.go TestCopy *)
Example t_copy : match copy five (Some 2) true, copy five (Some 2) false with
  | Ok (h, Some c), Ok (h', Some c') =>
    is_next h (Some c) ["3"; "4"; "5"]%string /\ is_prev h (Some c) ["3"; "2"; "1"]%string /\ Nat.ltb c 5 = false /\
    is_next h' (Some c') ["3"]%string /\ is_prev h' (Some c') ["3"]%string
  | _, _ => False end.
Proof. run. Qed.
(** node_test.go TestNodeTake *)
Example t_take_prev : let '(h, took) := take_prev five (Some 2) in
  took = Some 1 /\ is_next h took ["2"]%string /\ is_prev h took ["2"]%string /\ is_prev h (Some 0) ["1"]%string /\ is_next h (Some 0) ["1"; "3"; "4"; "5"]%string.
Proof. run. Qed.
Example t_take_next : let '(h, took) := take_next five (Some 2) in
  took = Some 3 /\ is_next h took ["4"]%string /\ is_prev h took ["4"]%string /\ is_prev h (Some 0) ["1"]%string /\ is_next h (Some 0) ["1"; "2"; "3"; "5"]%string.
Proof. run. Qed.
(** node_test.go TestNodeRemove *)
Example t_remove_prev : let '(h, r) := remove_prev five (Some 2) in
  is_prev h r ["2"; "1"]%string /\ is_next h r ["2"]%string /\ is_prev h (Some 2) ["3"]%string /\ is_next h (Some 2) ["3"; "4"; "5"]%string /\ is_next h (Some 0) ["1"; "2"]%string.
Proof. run. Qed.
Example t_remove_next : let '(h, r) := remove_next five (Some 2) in
  is_prev h r ["4"]%string /\ is_next h r ["4"; "5"]%string /\ is_prev h (Some 2) ["3"; "2"; "1"]%string /\ is_next h (Some 2) ["3"]%string /\ is_next h (Some 0) ["1"; "2"; "3"]%string.
Proof. run. Qed.
(** node_test.go TestNodeInsert *)
Example t_insert_prev : let '(h, (prev, next)) := insert_prev ten (Some 2) (Some 7) in
  is_prev h (Some 0) ["1"]%string /\ is_next h (Some 0) ["1"; "2"; "-3"; "3"; "4"; "5"]%string /\ is_next h (Some 5) ["-1"; "-2"]%string /\
  is_prev h prev ["-2"; "-1"]%string /\ is_next h prev ["-2"]%string /\ is_prev h next ["-4"]%string /\ is_next h next ["-4"; "-5"]%string.
Proof. run. Qed.
Example t_insert_next : let '(h, (prev, next)) := insert_next ten (Some 2) (Some 7) in
  is_prev h (Some 0) ["1"]%string /\ is_next h (Some 0) ["1"; "2"; "3"; "-3"; "4"; "5"]%string /\ is_next h (Some 5) ["-1"; "-2"]%string /\
  is_prev h prev ["-2"; "-1"]%string /\ is_next h prev ["-2"]%string /\ is_prev h next ["-4"]%string /\ is_next h next ["-4"; "-5"]%string.
Proof. run. Qed.
(** node_test.go TestNodeReplace *)
Example t_replace_prev : let '(h, (prev, next)) := replace_prev ten (Some 2) (Some 7) in
  is_next h (Some 0) ["1"; "2"]%string /\ is_next h (Some 5) ["-1"; "-2"; "-3"; "3"; "4"; "5"]%string /\
  is_prev h prev ["2"; "1"]%string /\ is_next h prev ["2"]%string /\ is_prev h next ["-4"]%string /\ is_next h next ["-4"; "-5"]%string.
Proof. run. Qed.
Example t_replace_next : let '(h, (prev, next)) := replace_next ten (Some 2) (Some 7) in
  is_next h (Some 0) ["1"; "2"; "3"; "-3"; "-4"; "-5"]%string /\ is_next h (Some 5) ["-1"; "-2"]%string /\
  is_prev h prev ["-2"; "-1"]%string /\ is_next h prev ["-2"]%string /\ is_prev h next ["4"]%string /\ is_next h next ["4"; "5"]%string.
Proof. run. Qed.
Example t_replace_next_same : replace_next five (Some 0) (Some 1) = (five, (None, None)).
Proof. run. Qed.
(** node_test.go TestIsolate *)
Example t_isolate : let h := isolate (fst (new_nodes [] 0 [$"1"; $"2"; $"3"])) (Some 1) in
  Forall (fun n => n_prev n = None /\ n_next n = None) h.
Proof. vm_compute. repeat constructor. Qed.
(** node_test.go TestCombine *)
Definition combine_heap : heap :=
  fst (new_nodes (fst (new_nodes (fst (new_nodes (fst (new_nodes [] 0 [$"1"])) 0 [$"2"])) 0 [$"3"])) 0 [$"4"; $"5"]).
Example t_combine : match combine_next combine_heap (Some 0) KRaw [Some 1; Some 2; Some 3] with
  | Ok (h, _) => is_next h (Some 0) ["1234"]%string /\ is_next h (Some 4) ["5"]%string /\ is_prev h (Some 4) ["5"]%string /\
      match combine_next h None KRaw [Some 0; Some 4] with Ok (h', n) => is_next h' n ["12345"]%string | _ => False end
  | _ => False end.
Proof. run. Qed.

(** trie_test.go TestTrie *)
Definition t_any : trie (option kind) := add_text None (new_trie None []) $"any" (Some KBasic).
Definition t_ayy : trie (option kind) := add_text None t_any $"ayy" (Some KComment).
Example t_trie : find_text None (Some t_any) $"any" = (Some KBasic, true) /\ find_text None (Some t_any) $"an" = (None, true) /\
  find_text None (Some t_any) $"ann" = (None, false) /\ find_text None (Some t_ayy) $"any" = (Some KBasic, true) /\
  find_text None (Some t_ayy) $"ayy" = (Some KComment, true) /\ find_byte None (Some t_ayy) $"ayy" = (Some KComment, true).
Proof. run. Qed.
(** trie_test.go TestTrieFindReversely *)
Definition t_123 : trie bool := new_trie false [($"123", true)].
Example t_trie_rev : snd (find_text false (Some t_123) $"123") = true /\ snd (find_text_rev false (Some t_123) $"321") = true /\
  snd (find_byte false (Some t_123) $"123") = true /\ snd (find_byte_rev false (Some t_123) $"321") = true.
Proof. run. Qed.

(** helper_test.go *)
Example t_has_prefix : map (has_prefix $"123456") [[]; $"123"; $"456"; $"123456"; $"1234567"] = [true; true; false; true; false] /\
  map (has_prefix []) [[]; $"123"] = [true; false].
Proof. run. Qed.
Example t_has_suffix : map (has_suffix $"123456") [[]; $"456"; $"123"; $"123456"; $"0123456"] = [true; true; false; true; false] /\
  map (has_suffix []) [[]; $"123"] = [true; false].
Proof. run. Qed.
Example t_tidy : tidy_text ([c_nl] ++ $" " ++ [c_nl] ++ $" " ++ [c_nl] ++ [c_tab] ++ [chr 13]) =
  $"\n" ++ middot ++ $"\n" ++ middot ++ $"\n -> " ++ middot.
Proof. run. Qed.

Definition t_interface : str := $"type Student interface {" ++ [c_nl] ++ [c_tab] ++ [c_tab] ++ $"Meow(int32)" ++ [c_nl] ++ [c_tab] ++ [c_tab] ++ $"SelfIntroduction(string) []byte" ++ [c_nl] ++ [c_tab] ++ [c_tab] ++ $"Laugh(loud float64) (bool, error)" ++ [c_nl] ++ [c_tab] ++ [c_tab] ++ $"Learn(fn func(string) map[string]string) (func(int)int64, error)" ++ [c_nl] ++ $"}".

Definition t_struct : str := $"type Student[T any] struct {" ++ [c_nl] ++ [c_tab] ++ [c_tab] ++ $"Name                                string" ++ [c_nl] ++ [c_tab] ++ [c_tab] ++ $"Age /* negative means not born */, Age2" ++ [c_tab] ++ $"int8" ++ [c_nl] ++ [c_tab] ++ [c_tab] ++ $"Relationship                        map[string]string" ++ [c_nl] ++ [c_tab] ++ [c_tab] ++ $"FuncRelationship                    map[string]func(int, int8) error" ++ [c_nl] ++ [c_tab] ++ [c_tab] ++ $"FuncRelationship2                   map[string]func(n int32, nn int64) error" ++ [c_nl] ++ [c_tab] ++ [c_tab] ++ $"FuncRelationship3                   map[string]func(uint, uint8) (uint64, error)" ++ [c_nl] ++ [c_tab] ++ [c_tab] ++ $"/* 123 */ Fn /* 234 */ func( /* 345 */" ++ [c_nl] ++ [c_tab] ++ [c_tab] ++ [c_tab] ++ $"/* 456 */ context.Context, /* 567 */" ++ [c_nl] ++ [c_tab] ++ [c_tab] ++ [c_tab] ++ $"/* 678 */ string, /* 789 */" ++ [c_nl] ++ [c_tab] ++ [c_tab] ++ [c_tab] ++ $"/* 321 */) /* 432 */ ( /* 543 */" ++ [c_nl] ++ [c_tab] ++ [c_tab] ++ [c_tab] ++ $"/* 654 */ int, /* 765 */" ++ [c_nl] ++ [c_tab] ++ [c_tab] ++ [c_tab] ++ $"/* 876 */ error, /* 987 */" ++ [c_nl] ++ [c_tab] ++ [c_tab] ++ [c_tab] ++ $"/* 000 */) /* comment */" ++ [c_nl] ++ [c_tab] ++ [c_tab] ++ $"}".

Definition t_other : str := $"type setter  /* comment */ func( /* comment */" ++ [c_nl] ++ [c_tab] ++ [c_tab] ++ $"/* comment */ context.Context, /* comment */" ++ [c_nl] ++ [c_tab] ++ [c_tab] ++ $"/* comment */ string, /* comment */" ++ [c_nl] ++ [c_tab] ++ [c_tab] ++ $"/* comment */) /* comment */ ( /* comment */" ++ [c_nl] ++ [c_tab] ++ [c_tab] ++ $"/* comment */ int, /* comment */" ++ [c_nl] ++ [c_tab] ++ [c_tab] ++ $"/* comment */ error, /* comment */" ++ [c_nl] ++ [c_tab] ++ [c_tab] ++ $"/* comment */) /* comment */" ++ [c_nl] ++ [c_nl] ++ $"type reMap map[uint8]float64" ++ [c_nl] ++ [c_nl] ++ $"type reSlice []uint64".

Definition t_common : str := $"func Hello(ctx context.Context, m map[string]string, f1 func(int) error, f2 func(num int8) (int32, error)) error {" ++ [c_nl] ++ [c_tab] ++ $"return (int, nil)" ++ [c_nl] ++ $"}".

Definition t_extract : str := [c_nl] ++ $"func Print(msg string, d decimal.Decimal) {" ++ [c_nl] ++ [c_tab] ++ $"// This is comment" ++ [c_nl] ++ [c_tab] ++ $"/* And This is (hello)" ++ [c_nl] ++ [c_tab] ++ $"Inner Comment */" ++ [c_nl] ++ [c_tab] ++ $"s := ""Hello\nThere""" ++ [c_nl] ++ [c_tab] ++ $"println(msg)" ++ [c_nl] ++ $"} " ++ [c_nl].

Definition t_method : str := $"func (m *memberUseCase) Start(ctx context.Context, req *usecase.UpdatePhoneReq) (res *usecase.UpdatePhoneResp, err error) {}".

Definition t_structs : str := $"type UpdatePhoneReq struct {" ++ [c_nl] ++ [c_tab] ++ [c_tab] ++ $"Phone       *string `json:""phone"" binding:""required""`" ++ [c_nl] ++ [c_tab] ++ [c_tab] ++ $"AreaCode    map[string]*Hello `json:""area_code"" binding:""required""`" ++ [c_nl] ++ [c_tab] ++ [c_tab] ++ $"CaptchaCode []*Hello `json:""code"" binding:""required""`" ++ [c_nl] ++ [c_tab] ++ $"}""".


(** extractor_test.go TestExtract: 40 nodes *)
Example t_extract_count : match extract src_ord [] t_extract with
  | Ok (h, p) => match texts_next h p with Ok ts => length ts = 40 | _ => False end | _ => False end.
Proof. run. Qed.

(** The kinds of the nodes with a given text, and the node a resetter returns. *)
Definition refine (run : nat -> ptr -> M ptr) (text : str) : res (heap * ptr * ptr) :=
  res_bind (extract src_ord [] text) (fun '(h, p) =>
  res_bind (run (reset_fuel h) p (mkSt h [])) (fun '(s, r) => Ok (s_heap s, p, r))).
Definition kinds_at (h : heap) (p : ptr) (t : string) : res (list kind) :=
  res_bind (scan_next h p (fun l a => (if bool_decide (text_of h (Some l) = list_ascii_of_string t) then a ++ [kind_of h (Some l)] else a, true)) []) (fun r => Ok (fst r)).
(** every node with the text has the kind (TestCommonResetter); the first has it, and there is one (the others) *)
Definition all_kind h p (k : kind) (t : string) : Prop := match kinds_at h p t with Ok ks => forallb (fun k' => kind_eqb k' k) ks = true | _ => False end.
Definition first_kind h p (k : kind) (t : string) : Prop := match kinds_at h p t with Ok (k' :: _) => kind_eqb k' k = true | _ => False end.
Fixpoint each (P : string -> Prop) (ts : list string) : Prop := match ts with [] => True | t :: r => P t /\ each P r end.

(** kind_resetter_all_test.go TestCommonResetter *)
Example t_common_ok : match refine reset_kind t_common with
  | Ok (h, p, r) => r = None /\ all_kind h p KFuncName "Hello" /\ each (all_kind h p KParamName) ["ctx"; "m"; "f1"; "f2"]%string /\
      each (all_kind h p KParamType) ["context.Context"; "map[string]string"; "func(int) error"; "func(num int8) (int32, error)"]%string
  | _ => False end.
Proof. run. Qed.
(** kind_resetter_type_test.go TestInterfaceResetter *)
Example t_interface_ok : match refine (fun f p => type_run f p []) t_interface with
  | Ok (h, p, r) => r = None /\ first_kind h p KTypeName "Student" /\
      each (first_kind h p KFuncName) ["Meow"; "SelfIntroduction"; "Laugh"; "Learn"]%string /\
      each (first_kind h p KParamName) ["loud"; "fn"]%string /\ first_kind h p KParamType "[]byte"
  | _ => False end.
Proof. run. Qed.
(** kind_resetter_type_test.go TestStructResetter *)
Example t_struct_ok : match refine (fun f p => type_run f p []) t_struct with
  | Ok (h, p, r) => r = None /\ first_kind h p KTypeName "Student" /\
      each (first_kind h p KParamName) ["Age"; "Age2"; "Relationship"; "FuncRelationship"; "FuncRelationship2"; "FuncRelationship3"; "Fn"; "n"; "nn"]%string /\
      first_kind h p KParamType "context.Context"
  | _ => False end.
Proof. run. Qed.
(** kind_resetter_type_test.go TestOtherResetter *)
Example t_other_ok : match refine (fun f p => type_run f p []) t_other with Ok (_, _, r) => r = None | _ => False end.
Proof. run. Qed.
(** kind_resetter_type_test.go TestStructResetterGetNameCount *)
Definition name_count (text : str) : res Z :=
  res_bind (extract src_ord [] text) (fun '(h, p) => res_bind (row_name_count p (mkSt h [])) (fun '(_, z) => Ok z)).
Example t_name_count :
  name_count ([c_tab; c_tab] ++ $"Repository" ++ [c_nl]) = Ok 0%Z /\
  name_count ([c_tab; c_tab] ++ $"repo1, repo2 Repository" ++ [c_nl]) = Ok 2%Z /\
  name_count ([c_tab; c_tab] ++ $"repo Repository" ++ [c_nl]) = Ok 1%Z /\
  name_count ([c_tab; c_tab] ++ $"repo1, repo2, repo3, repo4 func(" ++ [c_nl; c_tab] ++ $"int," ++ [c_nl; c_tab] ++ $"int," ++ [c_nl; c_tab]
    ++ $")(" ++ [c_nl; c_tab] ++ $"int," ++ [c_nl; c_tab] ++ $"error," ++ [c_nl; c_tab] ++ $")" ++ [c_nl]) = Ok 4%Z /\
  name_count ([c_tab; c_tab] ++ $"repository.Repository[Kind]" ++ [c_nl]) = Ok 0%Z.
Proof. run. Qed.
(** scope_test.go *)
Example t_parse_method : match parse_scope src_ord [] 0 t_method with Ok (_, scs) => length scs = 1 | _ => False end.
Proof. run. Qed.
Example t_parse_structs : match parse_scope src_ord [] 0 t_structs with Ok (_, scs) => length scs = 1 | _ => False end.
Proof. run. Qed.
