(** The tokeniser allocates one node per token. *)
From Verif Require Import Scope Node Extract ExtractHeap LexRun SpecLex SpecNode P_Lex P_Scope.

Lemma set_next_length h n p : length (set_next h n p) = length h.
Proof. destruct n; [|done]. unfold set_next. destruct (ptr_eqb _ _); [done|]. destruct (next_of _ _); by rewrite !alter_length. Qed.
Lemma set_prev_length h n p : length (set_prev h n p) = length h.
Proof. destruct n; [|done]. unfold set_prev. destruct (ptr_eqb _ _); [done|]. destruct (prev_of _ _); by rewrite !alter_length. Qed.
Lemma replace_next_length h n p : length (fst (replace_next h n p)) = length h.
Proof. unfold replace_next. destruct (_ || _); [done|]. cbn [fst]. by rewrite !set_prev_length, !set_next_length, !set_prev_length, !set_next_length. Qed.

Lemma insert_node_count x lc n x' lc' : insert_node x lc n = Ok (x', lc') ->
  length (x_heap x') = length (x_heap x) /\ x_buf x' = x_buf x /\ x_i x' = x_i x /\ x_line x' = x_line x /\ l_bufLine lc' = l_bufLine lc.
Proof.
  unfold insert_node. destruct n as [l|]; [|by intros [= <- <-]].
  destruct (last_of _ _) as [c| |]; try done. cbn [res_bind]. intros [= <- <-]. cbn [x_heap x_buf x_i x_line l_bufLine].
  split; [|done]. destruct (l_cur lc); [apply replace_next_length|done].
Qed.
Lemma insert_new_count x lc line t ks x' lc' : insert_new x lc line t ks = Ok (x', lc') ->
  length (x_heap x') = S (length (x_heap x)) /\ x_buf x' = x_buf x /\ x_i x' = x_i x /\ x_line x' = x_line x /\ l_bufLine lc' = l_bufLine lc.
Proof.
  unfold insert_new. assert (L : length (fst (new_node (x_heap x) line t ks)) = S (length (x_heap x))) by (destruct ks; cbn; rewrite app_length; cbn; lia).
  destruct (new_node _ _ _ _) as [h n]. intros H. apply insert_node_count in H. cbn [x_heap x_buf x_i x_line fst] in *. by rewrite L in H.
Qed.
Lemma push_node_count x lc b ks x' lc' line : push_node x lc b ks = Ok (x', lc') ->
  length (x_heap x') = length (x_heap x) + length (tpush (x_buf x) line ks) /\ x_buf x' = [] /\ x_i x' = x_i x /\ x_line x' = x_line x /\
  l_bufLine lc' = match x_buf x with [] => l_bufLine lc | _ => x_line x end.
Proof.
  unfold push_node, tpush. destruct (x_buf x) as [|c w] eqn:E; [intros [= <- <-]; cbn; rewrite E; split; [lia|done]|].
  destruct (insert_new _ _ _ _ _) as [[x1 lc1]| |] eqn:E1; try done. apply insert_new_count in E1 as (L & _ & I & N & _). cbn [res_bind].
  intros [= <- <-]. cbn [x_heap x_buf x_i x_line l_bufLine length]. split; [lia|]. by rewrite N.
Qed.
Lemma run_count f : forall ord text e x lc x' n toks i line, run f ord text e x lc = Ok (x', n) ->
  trun f ord text e (x_buf x) (x_i x) (x_line x) (l_bufLine lc) = Some (toks, i, line) ->
  length (x_heap x') = length (x_heap x) + length toks /\ x_buf x' = [] /\ x_i x' = i /\ x_line x' = line.
Proof.
  induction f as [|f IH]; intros ord text e x lc x' n toks i line R T; [discriminate|].
  cbn [trun run] in *. destruct (text !! x_i x) as [c|] eqn:Ec.
  2:{ injection T as <- <- <-. destruct (push_node x lc true []) as [[x1 lc1]| |] eqn:E; try done. apply (push_node_count _ _ _ _ _ _ (x_line x)) in E as (L & B & I & N & _).
      injection R as <- <-. done. }
  destruct (prefix_fit _ _) as [ee|] eqn:PF.
  - destruct (trun f ord text ee _ _ _ _) as [[[t3 i3] l3]|] eqn:T3; [|discriminate].
    destruct (trun f ord text e [] (S i3) l3 _) as [[[t4 i4] l4]|] eqn:T4; [|discriminate]. injection T as <- <- <-.
    destruct (push_node x lc true []) as [[x1 lc1]| |] eqn:E1; try done. apply (push_node_count _ _ _ _ _ _ (x_line x)) in E1 as (L1 & B1 & I1 & N1 & M1). cbn [res_bind] in R.
    match type of R with res_bind ?a _ = _ => destruct a as [[x2 lc2]| |] eqn:E2; try done end. cbn [res_bind] in R.
    assert (Step : length (x_heap x2) = length (x_heap x1) + length (if e_open (xconf ee) then [] else [(0%Z, string_of_byte c, kind_new (string_of_byte c))]) /\
      x_buf x2 = (if e_open (xconf ee) then [c] else []) /\ x_i x2 = x_i x1 /\ x_line x2 = x_line x1 /\ l_bufLine lc2 = l_bufLine lc1).
    { destruct (e_open (xconf ee)).
      - injection E2 as <- <-. cbn [write_byte x_heap x_buf x_i x_line length]. rewrite B1. split; [lia|done].
      - apply insert_new_count in E2 as (L2 & B2 & I2 & N2 & M2). rewrite B2, B1. cbn [length]. split; [lia|done]. }
    destruct Step as (L2 & B2 & I2 & N2 & M2).
    match type of R with res_bind ?a _ = _ => destruct a as [[x3 ns]| |] eqn:E3; try done end. cbn [res_bind] in R.
    destruct (IH _ _ _ _ _ _ _ t3 i3 l3 E3) as (L3 & B3 & I3 & N3); [unfold i_step; cbn [x_buf x_i x_line l_bufLine]; rewrite B2, I2, N2, I1, N1; exact T3|].
    match type of R with res_bind ?a _ = _ => destruct a as [[x4 lc4]| |] eqn:E4; try done end. cbn [res_bind] in R.
    apply insert_node_count in E4 as (L4 & B4 & I4 & N4 & M4).
    destruct (IH _ _ _ _ _ _ _ t4 i4 l4 R) as (L5 & B5 & I5 & N5); [unfold i_step; cbn [x_buf x_i x_line l_bufLine]; rewrite B4, B3, I4, I3, N4, N3, M4, M2, M1; exact T4|].
    split; [|done]. rewrite L5. cbn [i_step x_heap]. cbn [i_step x_heap] in L3. rewrite L4, L3, L2, L1, !app_length. destruct (e_open (xconf ee)); cbn [length]; lia.
  - destruct (negb _ && has_suffix _ (e_skip _)).
    { apply (IH _ _ _ _ _ _ _ _ _ _ R). exact T. }
    destruct (negb _ && has_suffix _ (e_ret _)).
    + injection T as <- <- <-. destruct (e_close (xconf e)).
      * destruct (push_node _ _ _ _) as [[x1 lc1]| |] eqn:E1; try done. cbn [res_bind] in R. injection R as <- <-.
        apply (push_node_count _ _ _ _ _ _ (l_bufLine lc)) in E1 as (L1 & B1 & I1 & N1 & M1). unfold line_step. cbn [x_heap x_buf x_i x_line]. split; [exact L1|]. by rewrite N1.
      * destruct (push_node _ _ _ _) as [[x1 lc1]| |] eqn:E1; try done. cbn [res_bind] in R.
        apply (push_node_count _ _ _ _ _ _ (x_line x)) in E1 as (L1 & B1 & I1 & N1 & M1).
        destruct (insert_new _ _ _ _ _) as [[x2 lc2]| |] eqn:E2; try done. apply insert_new_count in E2 as (L2 & B2 & I2 & N2 & M2).
        cbn [res_bind] in R. injection R as <- <-. unfold line_step. cbn [x_heap x_buf x_i x_line]. rewrite app_length. cbn [length].
        split; [lia|]. split; [congruence|]. split; [congruence|]. by rewrite N2, N1.
    + destruct (contain (e_sep (xconf e)) c).
      * destruct (trun f ord text e [] _ _ _) as [[[t4 i4] l4]|] eqn:T4; [|discriminate]. injection T as <- <- <-.
        destruct (push_node _ _ _ _) as [[x1 lc1]| |] eqn:E1; try done. cbn [res_bind] in R.
        apply (push_node_count _ _ _ _ _ _ (x_line x)) in E1 as (L1 & B1 & I1 & N1 & M1).
        destruct (insert_new _ _ _ _ _) as [[x2 lc2]| |] eqn:E2; try done. apply insert_new_count in E2 as (L2 & B2 & I2 & N2 & M2). cbn [res_bind] in R.
        destruct (IH _ _ _ _ _ _ _ t4 i4 l4 R) as (L5 & B5 & I5 & N5); [unfold i_step, line_step; cbn [x_buf x_i x_line]; rewrite B2, I2, N2, M2, B1, I1, N1, M1; exact T4|].
        split; [|done]. rewrite L5. cbn [i_step line_step x_heap]. rewrite !app_length. cbn [length]. lia.
      * apply (IH _ _ _ _ _ _ _ _ _ _ R). exact T.
Qed.
Lemma extract_count ord h text h' ls : any_order ord -> SpecNode.wf h -> tokenised ord h text h' ls -> length h' = length h + length ls.
Proof.
  intros O W Tk. pose proof (any_order_elem ord O) as O'.
  destruct (code_run ord O' text (S (length text)) ECommon 0 [] 0 0 [] 0%Z [] eq_refl) as (toks & i & line & T & _ & L & Sc); [constructor|lia| |].
  { intros w1 c w2 E. by destruct w1. }
  destruct (run_trun (S (length text)) ord text ECommon (mkX h [] 0 0%Z) (mkXL None None 0%Z) [] h toks i line) as (x' & ls' & E & W' & P & C & N & M & _).
  { constructor; try done. by intros l Hl%elem_of_nil. }
  { exact T. }
  apply (run_count _ _ _ _ _ _ _ _ toks i line) in E as Q; [|exact T]. destruct Q as [Q _]. cbn [x_heap] in Q.
  assert (Tk' : tokenised ord h text (x_heap x') ls').
  { split; [|exact C]. unfold extract. by rewrite E. }
  destruct (tokenised_det _ _ _ _ _ _ _ Tk Tk') as [-> ->]. rewrite Q. f_equal. apply (f_equal length) in M. cbn [app map] in M. by rewrite map_length in M.
Qed.
(** ParseScope allocates as many nodes as there are tokens. *)
Lemma parse_count ord h n text h1 ls h' scs : any_order ord -> SpecNode.wf h -> tokenised ord h text h1 ls -> parse_scope ord h n text = Ok (h', scs) ->
  length h' = length h + length ls.
Proof.
  intros O W Tk E. destruct (parse_inv ord h n text h1 ls h' scs O W Tk E) as (h2 & g & gs & _ & _ & _ & _ & _ & -> & _). by eapply extract_count.
Qed.
