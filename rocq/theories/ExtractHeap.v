(** The tokeniser's heap work: a run that builds chains of nodes is a run that
    builds lists of tokens. *)
From Verif Require Export Extract NodeFinal.


Lemma lookup_same (h h' : heap) l : same_payload h h' -> same_links h h' l -> h' !! l = h !! l.
Proof.
  intros [L P] [N1 N2]. destruct (h !! l) as [n|] eqn:E.
  - assert (V : l < length h') by (rewrite L; by eapply lookup_lt_Some).
    apply lookup_lt_is_Some in V as [n' E']. rewrite E'. f_equal.
    destruct (P (Some l)) as (P1 & P2 & P3). unfold line_of, kind_of, text_of in P1, P2, P3. unfold next_of, prev_of in N1, N2.
    simpl in *. rewrite E, E' in P1, P2, P3, N1, N2. destruct n, n'; simpl in *; congruence.
  - apply lookup_ge_None in E. apply lookup_ge_None. lia.
Qed.
Lemma prefix_heap (h0 h : heap) : h0 `prefix_of` h <-> length h0 <= length h /\ forall l, l < length h0 -> h !! l = h0 !! l.
Proof.
  split.
  - intros [k ->]. rewrite app_length. split; [lia|]. intros i Hi. by rewrite lookup_app_l.
  - intros [L H]. exists (drop (length h0) h). rewrite <- (take_drop (length h0) h) at 1. f_equal.
    apply list_eq. intros i. destruct (decide (i < length h0)) as [V|V].
    + rewrite lookup_take by done. by apply H.
    + rewrite !lookup_ge_None_2; [done|lia|rewrite take_length; lia].
Qed.
Lemma pay_prefix (h0 h : heap) l : h0 `prefix_of` h -> valid h0 l -> pay h l = pay h0 l.
Proof. intros [k ->] V. unfold pay, line_of, text_of, kind_of. by rewrite !field_app. Qed.
Lemma pays_prefix (h0 h : heap) ls : h0 `prefix_of` h -> (forall l, l ∈ ls -> valid h0 l) -> map (pay h) ls = map (pay h0) ls.
Proof.
  intros P V. apply map_ext_in. intros l Hl. apply pay_prefix; [done|]. apply V. by apply elem_of_list_In.
Qed.
Lemma pay_payload h h' l : same_payload h h' -> pay h' l = pay h l.
Proof. intros [_ P]. destruct (P (Some l)) as (P1 & P2 & P3). unfold pay. by rewrite P1, P2, P3. Qed.
Lemma pays_payload h h' ls : same_payload h h' -> map (pay h') ls = map (pay h) ls.
Proof. intros P. apply map_ext. intros l. by apply pay_payload. Qed.
Lemma seg_prefix (h0 h : heap) p ls q : h0 `prefix_of` h -> seg h0 p ls q -> seg h p ls q.
Proof.
  intros [k ->] S. apply (seg_frame h0); [rewrite app_length; lia| |done].
  intros l Hl. apply same_links_app. by eapply seg_valid.
Qed.

(** One call of Run owns the chain it has built, above the heap it started in. *)
Record owns (h0 h : heap) (lc : xloc) (ls : list loc) : Prop :=
  { ow_wf : wf h; ow_pre : h0 `prefix_of` h; ow_chain : chain h ls; ow_new : forall l, l ∈ ls -> length h0 <= l;
    ow_head : l_head lc = head ls; ow_cur : l_cur lc = last ls }.

Lemma last_of_chain h m ms : chain h (m :: ms) -> last_of h (Some m) = Ok (last (m :: ms)).
Proof. intros C. by apply (last_of_seg h None [] m ms). Qed.
Lemma last_app_cons {A} (xs : list A) y ys : last (xs ++ y :: ys) = last (y :: ys).
Proof. rewrite last_app. destruct (last (y :: ys)) eqn:E; [done|]. by apply last_None in E. Qed.

Lemma insert_node_spec h0 x lc ls ms n :
  owns h0 (x_heap x) lc ls -> chain (x_heap x) ms -> (forall l, l ∈ ms -> length h0 <= l) ->
  (forall l, l ∈ ms -> l ∉ ls) -> n = head ms ->
  exists x' lc', insert_node x lc n = Ok (x', lc') /\ owns h0 (x_heap x') lc' (ls ++ ms) /\
    x_buf x' = x_buf x /\ x_i x' = x_i x /\ x_line x' = x_line x /\ l_bufLine lc' = l_bufLine lc /\
    same_payload (x_heap x) (x_heap x').
Proof.
  intros [W P C N H1 H2] CM NM D ->. destruct ms as [|m ms].
  - exists x, lc. rewrite app_nil_r. split_and!; [done|by constructor|..]; try done. 
  - cbn [head hd_error]. unfold insert_node. rewrite H2.
    destruct (last ls) as [c|] eqn:Lc.
    + apply last_Some in Lc as [xs ->].
      assert (Dc : c ∉ [] ++ m :: ms).
      { cbn [app]. intros Hc. apply (D c Hc). apply elem_of_app. right. by apply elem_of_list_singleton. }
      pose proof (replace_next_cross (x_heap x) W c m xs [] [] ms C CM Dc) as R.
      pose proof (wf_replace_next (x_heap x) (Some c) (Some m) W) as RW.
      pose proof (same_payload_replace_next (x_heap x) (Some c) (Some m)) as RP.
      assert (Vc : valid (x_heap x) c) by (eapply valid_chain; [exact C|apply elem_of_app; right; by apply elem_of_list_singleton]).
      assert (Vm : valid (x_heap x) m) by (eapply valid_chain; [exact CM|by left]).
      assert (F : forall l, l < length h0 -> same_links (x_heap x) (fst (replace_next (x_heap x) (Some c) (Some m))) l).
      { intros l Hl.
        assert (Nc : length h0 <= c) by (apply N, elem_of_app; right; by apply elem_of_list_singleton).
        assert (Nm : length h0 <= m) by (apply NM; by left).
        assert (E1 : next_of (x_heap x) (Some c) = None) by (by rewrite (chain_next _ xs c [] C)).
        assert (E2 : prev_of (x_heap x) (Some m) = None) by (by rewrite (chain_prev _ [] m ms CM)).
        apply near_replace_next; [done|done|done|..].
        - intros [[= ->]|[E|E]]; [lia|congruence|].
          assert (In : l ∈ xs ++ [c]) by (eapply chain_prev_in; [exact C|apply elem_of_app; right; by apply elem_of_list_singleton|exact E]).
          apply N in In. lia.
        - intros [[= ->]|[E|E]]; [lia| |congruence].
          assert (In : l ∈ m :: ms) by (eapply chain_next_in; [exact CM|by left|exact E]).
          apply NM in In. lia. }
      destruct (replace_next (x_heap x) (Some c) (Some m)) as [h' r]. cbn [fst] in *.
      destruct R as (R1 & _). rewrite <- app_assoc. cbn [app].
      rewrite (last_of_seg h' None (xs ++ [c]) m ms) by (rewrite <- app_assoc; exact R1). cbn [res_bind].
      eexists _, _. split; [reflexivity|]. cbn [x_heap x_buf x_i x_line l_bufLine]. split_and!; try done.
      constructor; cbn [l_head l_cur]; [by apply RW|..].
      * apply prefix_heap. destruct RP as [RL RP]. split; [rewrite RL; by apply prefix_length|].
        intros l Hl. rewrite (lookup_same (x_heap x)); [|done|by apply F]. by apply prefix_heap in P as [_ P]; rewrite P.
      * exact R1.
      * intros l [Hl|[Hl|Hl]%elem_of_cons]%elem_of_app; [apply N; apply elem_of_app; by left|subst l; apply N, elem_of_app; right; by apply elem_of_list_singleton|by apply NM].
      * rewrite H1. by destruct xs.
      * change (c :: m :: ms) with ([c] ++ m :: ms). rewrite app_assoc. by rewrite last_app_cons.
    + apply last_None in Lc as ->. cbn [app].
      rewrite (last_of_chain _ m ms CM). cbn [res_bind]. rewrite H1. cbn [head hd_error].
      eexists _, _. split; [reflexivity|]. cbn [x_heap x_buf x_i x_line l_bufLine]. split_and!; try done.
Qed.

Lemma insert_new_spec h0 x lc ls line text ks : owns h0 (x_heap x) lc ls ->
  exists x' lc' l, insert_new x lc line text ks = Ok (x', lc') /\ owns h0 (x_heap x') lc' (ls ++ [l]) /\
    x_buf x' = x_buf x /\ x_i x' = x_i x /\ x_line x' = x_line x /\ l_bufLine lc' = l_bufLine lc /\
    map (pay (x_heap x')) (ls ++ [l]) = map (pay (x_heap x)) ls ++ [(line, text, match ks with k :: _ => k | [] => kind_new text end)].
Proof.
  intros O. unfold insert_new. pose proof (new_node_spec (x_heap x) line text ks) as H.
  destruct (new_node (x_heap x) line text ks) as [h c]. destruct H as (-> & P & C & B & L & T & K).
  set (x1 := mkX h (x_buf x) (x_i x) (x_line x)).
  destruct O as [W P0 C0 N H1 H2].
  assert (O1 : owns h0 (x_heap x1) lc ls).
  { constructor; try done; cbn [x1 x_heap].
    - destruct P as [k ->]. by apply (wf_extend (x_heap x) k [length (x_heap x)]).
    - by etransitivity.
    - by eapply seg_prefix. }
  assert (G0 : length h0 <= length (x_heap x)) by (by apply prefix_length).
  destruct (insert_node_spec h0 x1 lc ls [length (x_heap x)] (Some (length (x_heap x))) O1) as (x' & lc' & E & O' & E1 & E2 & E3 & E4 & E5); try done.
  - by intros l ->%elem_of_list_singleton.
  - intros l ->%elem_of_list_singleton Hl. apply (valid_chain _ _ _ C0) in Hl. unfold valid in Hl. lia.
  - exists x', lc', (length (x_heap x)). split_and!; try done.
    rewrite (pays_payload (x_heap x1)) by done. cbn [x1 x_heap]. rewrite map_app. f_equal.
    + apply pays_prefix; [done|]. intros l Hl. by eapply valid_chain.
    + cbn [map]. unfold pay. by rewrite L, T, K.
Qed.

(** What pushNode appends. *)
Definition tpush (buf : str) (line : Z) (ks : list kind) : list tok :=
  match buf with [] => [] | _ => [(line, buf, match ks with k :: _ => k | [] => kind_new buf end)] end.

Lemma push_node_spec h0 x lc ls useLine ks : owns h0 (x_heap x) lc ls ->
  exists x' lc' ms, push_node x lc useLine ks = Ok (x', lc') /\ owns h0 (x_heap x') lc' (ls ++ ms) /\
    x_buf x' = [] /\ x_i x' = x_i x /\ x_line x' = x_line x /\
    l_bufLine lc' = (match x_buf x with [] => l_bufLine lc | _ => x_line x end) /\
    map (pay (x_heap x')) (ls ++ ms) = map (pay (x_heap x)) ls ++ tpush (x_buf x) (if useLine then x_line x else l_bufLine lc) ks.
Proof.
  intros O. unfold push_node. destruct (x_buf x) as [|b buf] eqn:E.
  - exists x, lc, []. rewrite !app_nil_r. split_and!; done.
  - destruct (insert_new_spec h0 x lc ls (if useLine then x_line x else l_bufLine lc) (b :: buf) ks O)
      as (x' & lc' & l & -> & O' & E1 & E2 & E3 & E4 & E5).
    cbn [res_bind]. eexists _, _, [l]. split; [reflexivity|]. cbn [x_heap x_buf x_i x_line l_bufLine]. split_and!; try done.
    destruct O'. by constructor.
Qed.

(** The run on token lists: the same control flow as [run], with the chain built
    by one call replaced by the list of its tokens. *)
Fixpoint trun (fuel : nat) (ord : nat -> list (str * ext)) (text : str) (e : ext)
    (buf : str) (i : nat) (line bl : Z) : option (list tok * nat * Z) :=
  match fuel with
  | O => None
  | S f =>
    match text !! i with
    | None => Some (tpush buf line [], i, line)
    | Some c =>
      match prefix_fit (deeper (ord i) e) (drop i text) with
      | Some ee =>
        let bl' := match buf with [] => bl | _ => line end in
        let t2 := if e_open (xconf ee) then [] else [(bl', string_of_byte c, kind_new (string_of_byte c))] in
        let buf2 := if e_open (xconf ee) then [c] else [] in
        match trun f ord text ee buf2 (S i) line line with
        | Some (t3, i3, l3) =>
          match trun f ord text e [] (S i3) l3 bl' with
          | Some (t4, i4, l4) => Some (tpush buf line [] ++ t2 ++ t3 ++ t4, i4, l4)
          | None => None
          end
        | None => None
        end
      | None =>
        let trailing := take (S i) text in
        let line' := (if bool_decide (c = c_nl) then line + 1 else line)%Z in
        if negb (Nat.eqb (length (e_skip (xconf e))) 0) && has_suffix trailing (e_skip (xconf e))
        then trun f ord text e (buf ++ [c]) (S i) line' bl
        else if negb (Nat.eqb (length (e_ret (xconf e))) 0) && has_suffix trailing (e_ret (xconf e))
        then Some (if e_close (xconf e) then tpush (buf ++ [c]) bl (ext_kinds e)
                   else tpush buf line (ext_kinds e) ++ [(line, string_of_byte c, kind_new (string_of_byte c))], i, line')
        else if contain (e_sep (xconf e)) c
        then match trun f ord text e [] (S i) line' (match buf with [] => bl | _ => line end) with
             | Some (t4, i4, l4) => Some (tpush buf line [] ++ [(line, string_of_byte c, kind_new (string_of_byte c))] ++ t4, i4, l4)
             | None => None
             end
        else trun f ord text e (buf ++ [c]) (S i) line' bl
      end
    end
  end.

Lemma owns_prefix h0 h lc ls h' : owns h0 h lc ls -> h `prefix_of` h' -> wf h' -> owns h0 h' lc ls.
Proof.
  intros [W P C N H1 H2] P' W'. constructor; try done; [by etransitivity|by eapply seg_prefix].
Qed.

Lemma run_trun f : forall ord text e x lc ls h0 toks i line, owns h0 (x_heap x) lc ls ->
  trun f ord text e (x_buf x) (x_i x) (x_line x) (l_bufLine lc) = Some (toks, i, line) ->
  exists x' ms, run f ord text e x lc = Ok (x', head (ls ++ ms)) /\
    wf (x_heap x') /\ h0 `prefix_of` x_heap x' /\ chain (x_heap x') (ls ++ ms) /\
    (forall l, l ∈ ls ++ ms -> length h0 <= l) /\
    map (pay (x_heap x')) (ls ++ ms) = map (pay (x_heap x)) ls ++ toks /\
    x_buf x' = [] /\ x_i x' = i /\ x_line x' = line.
Proof.
  induction f as [|f IH]; intros ord text e x lc ls h0 toks i line O T; [discriminate|].
  cbn [trun run] in *. destruct (text !! x_i x) as [c|] eqn:Ec.
  2:{ injection T as <- <- <-.
    destruct (push_node_spec h0 x lc ls true [] O) as (x' & lc' & ms & -> & O' & E1 & E2 & E3 & E4 & E5).
    cbn [res_bind]. exists x', ms. destruct O'. split_and!; try done. by rewrite ow_head0. }
  destruct (prefix_fit _ _) as [ee|] eqn:PF.
  - destruct (trun f ord text ee _ _ _ _) as [[[t3 i3] l3]|] eqn:T3; [|discriminate].
    destruct (trun f ord text e [] (S i3) l3 _) as [[[t4 i4] l4]|] eqn:T4; [|discriminate].
    injection T as <- <- <-.
    destruct (push_node_spec h0 x lc ls true [] O) as (x1 & lc1 & ms1 & -> & O1 & E1 & E2 & E3 & E4 & E5).
    cbn [res_bind].
    assert (Step : exists x2 lc2 ms2, (if e_open (xconf ee) then Ok (write_byte x1 c, lc1)
              else insert_new x1 lc1 (l_bufLine lc1) (string_of_byte c) []) = Ok (x2, lc2) /\
              owns h0 (x_heap x2) lc2 ((ls ++ ms1) ++ ms2) /\ x_buf x2 = (if e_open (xconf ee) then [c] else []) /\
              x_i x2 = x_i x1 /\ x_line x2 = x_line x1 /\ l_bufLine lc2 = l_bufLine lc1 /\
              map (pay (x_heap x2)) ((ls ++ ms1) ++ ms2) = map (pay (x_heap x1)) (ls ++ ms1) ++
                (if e_open (xconf ee) then [] else [(l_bufLine lc1, string_of_byte c, kind_new (string_of_byte c))])).
    { destruct (e_open (xconf ee)).
      - eexists _, _, []. split; [reflexivity|]. rewrite !app_nil_r. cbn [write_byte x_heap x_buf x_i x_line]. rewrite E1. split_and!; done.
      - destruct (insert_new_spec h0 x1 lc1 (ls ++ ms1) (l_bufLine lc1) (string_of_byte c) [] O1) as (x2 & lc2 & l & -> & O2 & F1 & F2 & F3 & F4 & F5).
        exists x2, lc2, [l]. split_and!; try done. by rewrite F1. }
    destruct Step as (x2 & lc2 & ms2 & -> & O2 & F1 & F2 & F3 & F4 & F5). cbn [res_bind].
    set (lcN := mkXL None None (x_line (i_step x2))).
    assert (ON : owns (x_heap x2) (x_heap (i_step x2)) lcN []).
    { constructor; try done; [by destruct O2|by intros l Hl%elem_of_nil]. }
    destruct (IH ord text ee (i_step x2) lcN [] (x_heap x2) t3 i3 l3 ON) as (x3 & ms3 & -> & W3 & P3 & C3 & N3 & G1 & G2 & G3 & G4).
    { unfold lcN, i_step. cbn [x_buf x_i x_line l_bufLine]. rewrite F1, F2, F3, E2, E3. exact T3. }
    cbn [res_bind app] in *.
    assert (O3 : owns h0 (x_heap x3) lc2 ((ls ++ ms1) ++ ms2)) by (by eapply owns_prefix).
    destruct (insert_node_spec h0 x3 lc2 ((ls ++ ms1) ++ ms2) ms3 (head ms3) O3 C3) as (x4 & lc4 & -> & O4 & H1 & H2 & H3 & H4 & H5).
    { intros l Hl. apply N3 in Hl. apply ow_pre, prefix_length in O2. lia. }
    { intros l Hl Hl'. apply N3 in Hl. apply (valid_chain _ _ _ (ow_chain _ _ _ _ O2)) in Hl'. unfold valid in Hl'. lia. }
    { done. }
    cbn [res_bind].
    destruct (IH ord text e (i_step x4) lc4 (((ls ++ ms1) ++ ms2) ++ ms3) h0 t4 i4 l4 O4) as (x5 & ms5 & -> & W5 & P5 & C5 & N5 & K1 & K2 & K3 & K4).
    { unfold i_step. cbn [x_buf x_i x_line l_bufLine]. rewrite H1, H2, H3, H4, G2, G3, G4, F4, E4. exact T4. }
    exists x5, (ms1 ++ ms2 ++ ms3 ++ ms5). rewrite !app_assoc. split_and!; try done.
    rewrite K1. cbn [i_step x_heap]. rewrite (pays_payload (x_heap x3)) by done.
    rewrite map_app. rewrite (pays_prefix (x_heap x2) (x_heap x3)); [|done|intros l Hl; eapply valid_chain; [exact (ow_chain _ _ _ _ O2)|done]].
    rewrite F5, E5, G1. rewrite E4. by rewrite <- !app_assoc.
  - destruct (negb _ && has_suffix _ (e_skip _)).
    { apply (IH ord text e (i_step (line_step (write_byte x c) c)) lc ls h0 toks i line O).
      cbn [write_byte line_step i_step x_buf x_i x_line]. exact T. }
    destruct (negb _ && has_suffix _ (e_ret _)).
    + injection T as <- <- <-.
      destruct (e_close (xconf e)).
      * destruct (push_node_spec h0 (write_byte x c) lc ls false (ext_kinds e) O) as (x' & lc' & ms & -> & O' & E1 & E2 & E3 & E4 & E5).
        cbn [res_bind]. exists (line_step x' c), ms. destruct O'. unfold line_step. cbn [x_heap x_buf x_i x_line].
        split_and!; try done. { by rewrite ow_head0. } by rewrite E3.
      * destruct (push_node_spec h0 x lc ls true (ext_kinds e) O) as (x1 & lc1 & ms1 & -> & O1 & E1 & E2 & E3 & E4 & E5).
        cbn [res_bind].
        destruct (insert_new_spec h0 x1 lc1 (ls ++ ms1) (x_line x1) (string_of_byte c) [] O1) as (x2 & lc2 & l & -> & O2 & F1 & F2 & F3 & F4 & F5).
        cbn [res_bind]. exists (line_step x2 c), (ms1 ++ [l]). rewrite !app_assoc. destruct O2. unfold line_step. cbn [x_heap x_buf x_i x_line].
        split_and!; try done.
        { by rewrite ow_head0. } { rewrite F5, E5, E3. done. } { congruence. } { congruence. } by rewrite F3, E3.
    + destruct (contain (e_sep (xconf e)) c).
      * destruct (trun f ord text e [] _ _ _) as [[[t4 i4] l4]|] eqn:T4; [|discriminate]. injection T as <- <- <-.
        destruct (push_node_spec h0 x lc ls true [] O) as (x1 & lc1 & ms1 & -> & O1 & E1 & E2 & E3 & E4 & E5).
        cbn [res_bind].
        destruct (insert_new_spec h0 x1 lc1 (ls ++ ms1) (x_line x1) (string_of_byte c) [] O1) as (x2 & lc2 & l & -> & O2 & F1 & F2 & F3 & F4 & F5).
        cbn [res_bind].
        destruct (IH ord text e (i_step (line_step x2 c)) lc2 ((ls ++ ms1) ++ [l]) h0 t4 i4 l4 O2) as (x5 & ms5 & -> & W5 & P5 & C5 & N5 & K1 & K2 & K3 & K4).
        { unfold i_step, line_step. cbn [x_buf x_i x_line]. rewrite F1, F2, F3, F4, E1, E2, E3, E4. exact T4. }
        exists x5, (ms1 ++ [l] ++ ms5). rewrite !app_assoc. split_and!; try done.
        rewrite K1. cbn [i_step line_step x_heap]. rewrite F5, E5, E3. by rewrite <- !app_assoc.
      * apply (IH ord text e (i_step (line_step (write_byte x c) c)) lc ls h0 toks i line O).
        cbn [write_byte line_step i_step x_buf x_i x_line]. exact T.
Qed.
