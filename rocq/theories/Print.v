(** What the library prints: node.go, scope.go (Print), node.go (debugText), and the
    second example program of exported/main_test.go.  Printed text is the value of
    these functions; nothing of the heap can change. *)
From Verif Require Export Ast.
From Coq Require Import NArith.

(** node.go:430-432 [Print]: [println] separates its arguments by a space and ends
    the line *)
Definition node_print (h : heap) (n : ptr) : str := [c_tab; c_sp] ++ description h n ++ [c_nl].
(** scope.go:152-154 [Print] *)
Definition scope_print (d : option scope) : str := scope_description d ++ [c_nl].

(** A Go [uint] *)
Definition wrap (z : Z) : Z := (z mod 2 ^ 64)%Z.
(** node.go:388-407 [debugText]; [nextCount] is [nextCount[0]], 0 if absent; the
    callback (402-406) has captured [buf] and [count] *)
Definition debug_text (fuel : nat) (h : heap) (n : ptr) (nextCount : Z) : res str :=
  match n with
  | None => Ok []
  | Some _ =>
    res_bind (iter_next (fun _ => h) fuel n
      (fun l '(buf, count) => let count' := wrap (count - 1) in
         Ok ((buf ++ tidy_text (text_of h (Some l)), count'), negb (count' =? 0)%Z))
      ([], wrap (1 + wrap nextCount))) (fun '((buf, _), _) => Ok buf)
  end.

(** exported/main_test.go:70-73: all nodes of a scope are printed *)
Definition print_nodes (h : heap) (p : ptr) : res str :=
  res_bind (scan_next h p (fun l acc => (acc ++ node_print h (Some l), true)) []) (fun r => Ok (fst r)).
(** exported/main_test.go:64-75 [TestUsecase]: the callback of IterScope, for all
    scopes; calling a method of a nil scope panics *)
Fixpoint print_interfaces (h : heap) (scs : list (option scope)) : res str :=
  match scs with
  | [] => Ok []
  | None :: _ => Panic
  | Some sc :: r =>
    res_bind (get_interface_name h sc) (fun nm =>
    res_bind (if snd nm then res_bind (print_nodes h (sc_node sc)) (fun t => Ok (scope_print (Some sc) ++ t)) else Ok []) (fun t =>
    res_bind (print_interfaces h r) (fun t' => Ok (t ++ t'))))
  end.
