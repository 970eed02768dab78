(** C69: printing. *)
From Verif Require Import Print SpecPrint NodeProofs NodeInv NodeChain P_Node P_Pure P_Lex P_Scope P_Ast P_Get P_Edit PureProofs.

Theorem C69_node_print : forall h n, c_nl ∉ k_name (kind_of h n) -> one_line (node_print h n).
Proof.
  intros h n K. exists ([c_tab; c_sp] ++ description h n). split; [unfold node_print; by rewrite app_assoc|].
  rewrite elem_of_app. intros [H|H]; [|by apply (C21_description_one_line h n K)]. repeat (apply elem_of_cons in H as [H|H]; [discriminate H|]). by apply elem_of_nil in H.
Qed.
Lemma print_nodes_ok h sc ls : scope_nodes h sc ls -> print_nodes h (sc_node sc) = Ok (concat (map (fun l => node_print h (Some l)) ls)).
Proof. intros SN. unfold print_nodes. rewrite (scan_nodes h sc ls _ _ SN), scan_collect. done. Qed.
(** After parsing, every node prints one line. *)
Theorem C69_parsed_nodes : forall ord h startLine text h' scs sc ls l, any_order ord -> SpecNode.wf h ->
  parse_scope ord h startLine text = Ok (h', scs) -> sc ∈ scs -> scope_nodes h' sc ls -> l ∈ ls -> one_line (node_print h' (Some l)).
Proof.
  intros ord h n text h' scs sc ls l O W E Hs SN Hl. apply C69_node_print.
  destruct (C29_tokeniser_terminates ord h text O W) as (h1 & ts & Tk & _). pose proof (tokenised_tokens ord h text h1 ts O W Tk) as T.
  destruct (C34_partition ord h n text h1 ts h' scs O W Tk E) as (g & gs & Et & _ & F).
  destruct (C38_parse_scope_refines ord h n text h1 ts h' scs O W Tk E) as (_ & _ & _ & K & _).
  assert (Ht : l ∈ ts).
  { rewrite Et. apply elem_of_app. right. apply elem_of_list_In, in_concat. clear -F Hs SN Hl. induction F as [|sc' gr scs gs (Eh & Ne & cur & C & Hd & Sub & _) _ IH]; [by apply elem_of_nil in Hs|].
    apply elem_of_cons in Hs as [->|Hs]; [|destruct (IH Hs) as (x & ? & ?); exists x; split; [by right|done]].
    exists gr. split; [by left|]. apply elem_of_list_In. destruct SN as (Hn & bf & C2). eapply elem_of_submseteq; [|by apply sublist_submseteq, Sub].
    destruct ls as [|x ls]; [by apply elem_of_nil in Hl|]. destruct cur as [|y cur]; [cbn in *; congruence|]. assert (y = x) as -> by (cbn in *; congruence).
    rewrite (chain_unique h' _ _ x C C2 ltac:(by left) ltac:(apply elem_of_app; right; by left)). apply elem_of_app. by right. }
  assert (Kn : forall k, k ∈ [KString; KComment] ++ refined -> c_nl ∉ k_name k).
  { intros k Hk. apply (lits _ (fun k => negb (bool_decide (c_nl ∈ k_name k)))) in Hk; [|vm_compute; reflexivity]. by apply negb_true_iff, bool_decide_eq_false in Hk. }
  destruct (K l Ht) as [->|R]; [|apply Kn, elem_of_app; by right].
  apply scan_kinds in T. rewrite Forall_forall in T. specialize (T (pay h1 l)). destruct T as [T|[T|T]]; [apply elem_of_list_fmap; by exists l|..]; cbn [pay fst snd] in T; rewrite T.
  - apply C21_kind_names_one_line.
  - apply Kn. by left.
  - apply Kn. right. by left.
Qed.
(** The second example program prints the scopes with interfaces, in order, each
    followed by its nodes, in order. *)
Theorem C69_usecase : forall h scs lss, Forall2 (scope_nodes h) scs lss ->
  print_interfaces h (map Some scs) =
  Ok (concat (map (fun p => scope_print (Some (fst p)) ++ concat (map (fun l => node_print h (Some l)) (snd p))) (filter (has_interface h) (zip scs lss)))).
Proof.
  intros h scs lss F. induction F as [|sc ls scs lss SN _ IH]; [done|]. cbn [map print_interfaces zip zip_with].
  assert (G : exists nm b, get_interface_name h sc = Ok (nm, b) /\ (b = true <-> has_interface h (sc, ls))).
  { destruct (decide (sc_kind sc = SType)) as [Ek|Nk].
    - destruct (C44_interface_name h sc ls Ek SN) as (nm & fd & _ & [[(l & Hl & K) ->]|[N ->]]); eexists _, _; (split; [reflexivity|]).
      + split; [intros _|done]. split; [done|]. apply Exists_exists. by exists l.
      + split; [done|]. intros [_ X]. cbn [snd] in X. apply Exists_exists in X as (l & Hl & K). by destruct (N l Hl).
    - exists [], false. split; [by apply C44_guarded|]. split; [done|]. intros [X _]. done. }
  destruct G as (nm & b & -> & Hb). cbn [res_bind snd]. rewrite filter_cons. destruct b.
  - rewrite decide_True by (by apply Hb). rewrite (print_nodes_ok h sc ls SN). cbn [res_bind]. rewrite IH. cbn [res_bind map concat fst snd]. done.
  - rewrite decide_False by (intros X; apply Hb in X; done). cbn [res_bind]. rewrite IH. done.
Qed.
(** The hypothesis is met after every parse. *)
Theorem C69_usecase_parsed : forall ord h startLine text h' scs, any_order ord -> SpecNode.wf h -> parse_scope ord h startLine text = Ok (h', scs) ->
  exists lss, Forall2 (scope_nodes h') scs lss.
Proof.
  intros ord h n text h' scs O W E. destruct (C65_parsed ord h n text h' scs O W E) as (lss & _ & F & _). exists lss.
  clear E. revert lss F. induction scs as [|sc scs IH]; intros [|ls lss] F; cbn [map] in F; try (by inversion F).
  apply Forall2_cons in F as [(s' & Es & Eh & Ne & C) F]. injection Es as <-. constructor; [|by apply IH]. split; [done|]. by exists [].
Qed.
(** What is printed for debugging is bounded, also on a circle: [nextCount] nodes
    after the first, tidied. *)
Theorem C69_debug_text : forall fuel h n nextCount, (0 <= nextCount < 2 ^ 64 - 1)%Z -> Z.to_nat nextCount < fuel ->
  debug_text fuel h n nextCount = Ok (concat (map (fun l => tidy_text (text_of h (Some l))) (ahead h n (Z.to_nat nextCount + 1)))).
Proof.
  intros fuel h n c Hc Hf. unfold debug_text. destruct n as [l|]; [|by destruct (Z.to_nat c + 1)%nat].
  assert (G : forall k fuel p buf, (Z.of_nat k < 2 ^ 64 - 1)%Z -> k < fuel ->
    exists c' q, iter_next (fun _ : str * Z => h) fuel p (fun l '(buf, count) => let count' := wrap (count - 1) in Ok ((buf ++ tidy_text (text_of h (Some l)), count'), negb (count' =? 0)%Z)) (buf, Z.of_nat (Datatypes.S k)) =
      Ok ((buf ++ concat (map (fun l => tidy_text (text_of h (Some l))) (ahead h p (Datatypes.S k))), c'), q)).
  { clear. unfold iter_next. induction k as [|k IH]; intros [|fuel] [p|] buf Hk Hf; try lia; cbn [loop ahead map concat].
    - change (wrap (Z.of_nat 1 - 1)) with 0%Z. cbn [Z.eqb negb]. eexists _, _. rewrite app_nil_r. reflexivity.
    - eexists _, _. rewrite app_nil_r. reflexivity.
    - assert (Ew : wrap (Z.of_nat (Datatypes.S (Datatypes.S k)) - 1) = Z.of_nat (Datatypes.S k)) by (unfold wrap; rewrite Z.mod_small; lia). rewrite Ew.
      destruct (Z.eqb_spec (Z.of_nat (Datatypes.S k)) 0); [lia|]. cbn [negb]. destruct (IH fuel (next_of h (Some p)) (buf ++ tidy_text (text_of h (Some p))) ltac:(lia) ltac:(lia)) as (c' & q & E).
      exists c', q. rewrite E. by rewrite app_assoc.
    - eexists _, _. rewrite app_nil_r. reflexivity. }
  destruct (G (Z.to_nat c) fuel (Some l) [] ltac:(lia) Hf) as (c' & q & E).
  assert (Ew : wrap (1 + wrap c) = Z.of_nat (Datatypes.S (Z.to_nat c))). { unfold wrap. rewrite (Z.mod_small c) by lia. rewrite Z.mod_small; lia. }
  rewrite Ew. match type of E with ?x = ?y => match goal with |- res_bind ?z _ = _ => change z with x end end. rewrite E. cbn [res_bind app]. by rewrite Nat.add_1_r.
Qed.
(** The first example: what the program prints for a type and a function. *)
Definition printed (text : str) : option str :=
  match parse_scope src_ord [] 0 text with
  | Ok (h, scs) => match print_interfaces h (map Some scs) with Ok t => Some t | _ => None end
  | _ => None
  end.
(** A circle: two nodes linked both ways. *)
Example ex_C69_circle :
  let h := [mkNode 0 KRaw $"a" (Some 1) (Some 1); mkNode 0 KRaw [c_tab] (Some 0) (Some 0)] in
  debug_text 6 h (Some 0) 5 = Ok $"a -> a -> a -> ".
Proof. vm_compute. reflexivity. Qed.
(** Beyond that the counter overflows and the whole chain is printed. *)
Example ex_C69_overflow :
  let h := [mkNode 0 KRaw $"a" None (Some 1); mkNode 0 KRaw $"b" (Some 0) None] in
  debug_text 6 h (Some 0) (2 ^ 64 - 1) = Ok $"ab".
Proof. vm_compute. reflexivity. Qed.
Example ex_C69 : printed ($"func f()" ++ [c_nl] ++ $"type I interface{}") =
  Some ($"3 .... *Scope.Type" ++ [c_nl] ++ concat (map (fun s => [c_tab; c_sp] ++ $s ++ [c_nl])
    ["2 .... type .... *Node.Type"; "2 .... · .... *Node.Space"; "2 .... I .... *Node.TypeName"; "2 .... · .... *Node.Space";
     "2 .... interface .... *Node.Interface"; "2 .... { .... *Node.CurlyBracketLeft"; "2 .... } .... *Node.CurlyBracketRight"]%string)).
Proof. vm_compute. reflexivity. Qed.
