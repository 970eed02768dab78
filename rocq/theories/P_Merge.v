(** C71: putting a file together from declarations of others. *)
From Verif Require Import SpecMerge SpecEdit NodeProofs NodeInv NodeChain NodeOps NodeCopy NodeHist NodeFinal ResetSpec Scope Ast SpecScope SpecText SpecLex LexSpecProofs LocalProofs P_Node P_Scope P_Ast P_Text P_Lex P_Local P_Edit P_Rename.

Lemma viewed_frame h h' sc v : length h <= length h' -> (forall l, valid h l -> h' !! l = h !! l) -> viewed h sc v -> viewed h' sc v.
Proof.
  intros L F (cur & C & Hd & ->). assert (Fc : forall l, l ∈ cur -> h' !! l = h !! l) by (intros l Hl; apply F; by eapply valid_chain).
  exists cur. split; [apply (seg_frame h); [done| |done]; intros l Hl; apply nodes_same_links; by apply Fc|]. split; [done|]. f_equal.
  apply map_ext_in. intros l Hl%elem_of_list_In. unfold pay. pose proof (Fc l Hl) as E. unfold line_of, kind_of, text_of. by rewrite !(field_ext _ _ h' h l) by done.
Qed.
Lemma save_viewed h scs vs : Forall2 (viewed h) scs vs -> save_text h (map Some scs) = Ok (concat (map view_text vs)).
Proof.
  intros V. induction V as [|sc v scs vs (cur & C & Hd & ->) _ IH]; [done|]. cbn [map save_text]. unfold chain_text.
  rewrite (scan_nodes h sc cur) by (split; [done|by exists []]). rewrite scan_collect. cbn [res_bind fst app]. rewrite IH. cbn [res_bind concat]. f_equal. f_equal.
  unfold view_text. cbn [snd]. by rewrite <- text_at_pay.
Qed.
Lemma parse_all_frame ord h texts h' scss : any_order ord -> SpecNode.wf h -> parse_all ord h texts h' scss ->
  SpecNode.wf h' /\ length h <= length h' /\ forall l, valid h l -> h' !! l = h !! l.
Proof.
  intros O W P. revert W. induction P as [h|h text h1 scs texts h2 scss E P IH]; intros W; [done|].
  destruct (C37_parse_scope_terminates ord h 0 text O W) as (h1' & scs' & E' & W1 & F). rewrite E in E'. injection E' as <- <-.
  destruct (IH W1) as (W2 & L & F2). assert (L1 : length h <= length h1).
  { destruct (decide (length h = 0)); [lia|]. assert (Vl : valid h (length h - 1)) by (unfold valid; lia). pose proof (F _ Vl) as Q.
    destruct (lookup_lt_is_Some_2 h (length h - 1) Vl) as [x Ex]. rewrite Ex in Q. apply lookup_lt_Some in Q. lia. }
  split; [done|]. split; [lia|]. intros l V. rewrite F2 by (unfold valid in *; lia). by apply F.
Qed.
(** A declaration and its scopes. *)
Definition owns (ord : nat -> list (str * ext)) (h0 h : heap) (d : str) (g : list scope) : Prop :=
  exists k vs, parses_to ord h0 0 d vs /\ Forall2 (viewed h) g (map (down k) vs).
Lemma group_scopes ord h0 h ds vss : forall d scs, Forall2 (parses_to ord h0 0) ds vss -> Forall2 (viewed h) scs (stacked d ds vss) ->
  exists gs, concat gs = scs /\ Forall2 (owns ord h0 h) ds gs.
Proof.
  revert ds. induction vss as [|vs vss IH]; intros ds d scs F V.
  - inversion F; subst. inversion V. exists []. split; [done|constructor].
  - inversion F as [|x ? ds' ? Px F']; subst. cbn [stacked] in V. apply Forall2_app_inv_r in V as (s1 & s2 & V1 & V2 & ->).
    destruct (IH ds' _ s2 F' V2) as (gs & <- & O). exists (s1 :: gs). split; [done|]. constructor; [by exists d, vs|done].
Qed.
Lemma owns_frame ord h0 h h' d g : length h <= length h' -> (forall l, valid h l -> h' !! l = h !! l) -> owns ord h0 h d g -> owns ord h0 h' d g.
Proof. intros L F (k & vs & P & V). exists k, vs. split; [done|]. eapply Forall2_impl; [exact V|]. intros sc v. by apply viewed_frame. Qed.
Lemma shape_down k v : shape (down k v) = shape v.
Proof. unfold shape, down. cbn [fst snd]. f_equal. rewrite map_map. by apply map_ext. Qed.
Lemma shapes_stacked d ds vss : map shape (stacked d ds vss) = map shape (concat (zip_with (fun _ vs => vs) ds vss)).
Proof.
  revert d vss. induction ds as [|x ds IH]; intros d [|vs vss]; try done. cbn [stacked zip_with concat]. rewrite !map_app, IH. f_equal. rewrite map_map. apply map_ext. intros v. apply shape_down.
Qed.

(** ** C71 *)
Theorem C71_assemble : forall ord h files h' scss, any_order ord -> SpecNode.wf h ->
  (* every file is made of complete declarations that keep their text *)
  Forall (Forall (fun d => (complete d /\ begins_scope d) /\ reproduced d)) files ->
  parse_all ord h (map (@concat ascii) files) h' scss ->
  (* every declaration has its scopes, *)
  exists groups, map (@concat scope) groups = scss /\ Forall2 (fun ds gs => length ds = length gs) files groups /\
  (* and for every selection of declarations, in any order, *)
  forall sel, (forall p, p ∈ sel -> p ∈ zip (concat files) (concat groups)) ->
    (* an ast with their scopes is saved as the text of the selected declarations, *)
    save_text h' (map Some (concat (map snd sel))) = Ok (concat (map fst sel)) /\
    (* which is parsed to scopes that look the same *)
    forall ord' g h2 scs vs vs0, any_order ord' -> SpecNode.wf g -> parse_scope ord' g 0 (concat (map fst sel)) = Ok (h2, scs) ->
      Forall2 (viewed h2) scs vs -> Forall2 (viewed h') (concat (map snd sel)) vs0 -> map shape vs = map shape vs0.
Proof.
  intros ord h files h' scss O W Fd P.
  assert (G : exists groups, map (@concat scope) groups = scss /\ Forall2 (Forall2 (owns ord h h')) files groups).
  { assert (Gen : forall h1, SpecNode.wf h1 -> parse_all ord h1 (map (@concat ascii) files) h' scss -> exists groups, map (@concat scope) groups = scss /\ Forall2 (Forall2 (owns ord h h')) files groups); [|by apply (Gen h W P)].
    clear P. revert scss. induction Fd as [|ds files Fds _ IH]; intros scss h1 W1 P.
    - inversion P. exists []. split; [done|constructor].
    - cbn [map] in P. inversion P as [|? ? h2 scs ? ? scss' E P']; subst. destruct (C37_parse_scope_terminates ord h1 0 (concat ds) O W1) as (h2' & scs' & E' & W2 & _). rewrite E in E'. injection E' as <- <-.
      destruct (IH scss' h2 W2 P') as (groups & <- & Fg). destruct (parse_all_frame ord h2 _ h' _ O W2 P') as (_ & L & F).
      destruct (all_parse ord h ds O W) as [vss Fv]. destruct (parses_total ord h1 0 (concat ds) O W1) as [vs Pv]. pose proof Pv as (h2' & scs' & E' & V). rewrite E in E'. injection E' as <- <-.
      assert (Ev : vs = stacked 0 ds vss). { apply (C60_declarations ord h ord h1 0); try done. eapply Forall_impl; [exact Fds|]. by intros ? []. }
      subst vs. destruct (group_scopes ord h h2 ds vss 0 scs Fv V) as (gs & <- & Ow). exists (gs :: groups). split; [done|]. constructor; [|done].
      eapply Forall2_impl; [exact Ow|]. intros d g. by apply owns_frame. }
  destruct G as (groups & Eg & Fo). exists groups. split; [done|]. split; [eapply Forall2_impl; [exact Fo|]; intros ds gs; apply Forall2_length|].
  assert (Fz : forall p, p ∈ zip (concat files) (concat groups) -> owns ord h h' (fst p) (snd p) /\ (complete (fst p) /\ begins_scope (fst p)) /\ reproduced (fst p)).
  { assert (F1 : Forall2 (owns ord h h') (concat files) (concat groups)). { clear -Fo. induction Fo as [|ds gs files groups F _ IH]; [constructor|]. cbn [concat]. by apply Forall2_app. }
    assert (F2 : Forall (fun d => (complete d /\ begins_scope d) /\ reproduced d) (concat files)). { clear -Fd. induction Fd as [|ds files F _ IH]; [constructor|]. cbn [concat]. by apply Forall_app. }
    clear -F1 F2. induction F1 as [|d g ds gs Ow _ IH]; intros p Hp; [by apply elem_of_nil in Hp|]. inversion_clear F2 as [|? ? Q1 Q2]. cbn [zip zip_with] in Hp. apply elem_of_cons in Hp as [->|Hp]; [by split|by apply IH]. }
  intros sel Hsel.
  assert (V : exists vss, Forall2 (parses_to ord h 0) (map fst sel) vss /\ exists us, Forall2 (viewed h') (concat (map snd sel)) us /\ map shape us = map shape (concat vss) /\ concat (map view_text us) = concat (map fst sel)).
  { clear -Fz Hsel O W. induction sel as [|[d g] sel IH]; [exists []; split; [constructor|]; exists []; split; [constructor|done]|].
    destruct IH as (vss & Fv & us & Vu & Es & Et); [intros p Hp; apply Hsel; by right|]. destruct (Fz (d, g) (Hsel _ ltac:(by left))) as ((k & vs & Pd & Vd) & _ & Rd). cbn [fst snd] in *.
    exists (vs :: vss). split; [by constructor|]. exists (map (down k) vs ++ us). cbn [map concat]. split; [by apply Forall2_app|]. rewrite !map_app, concat_app, Es, Et. split.
    - f_equal. rewrite map_map. apply map_ext. intros v. apply shape_down.
    - f_equal. etransitivity; [|exact (Rd ord h vs O W Pd)]. f_equal. rewrite map_map. apply map_ext. intros v. apply view_text_down. }
  destruct V as (vss & Fv & us & Vu & Es & Et). split; [rewrite (save_viewed h' _ us Vu); by rewrite Et|].
  intros ord' g h2 scs vs vs0 O' W' E Vs V0.
  assert (Ev : vs = stacked 0 (map fst sel) vss).
  { apply (C60_declarations ord h ord' g 0); try done; [|by exists h2, scs]. rewrite Forall_forall. intros d Hd. apply elem_of_list_fmap in Hd as (p & -> & Hp). by apply Fz, Hsel. }
  assert (vs0 = us) as ->.
  { clear -Vu V0. revert vs0 V0. induction Vu as [|sc u scs us Hu _ IH]; intros vs0 V0; inversion V0 as [|? w ? ws Hw V1]; subst; [done|]. f_equal; [|by apply IH].
    destruct Hu as (c1 & C1 & H1 & ->), Hw as (c2 & C2 & H2 & ->). f_equal. f_equal. destruct c1 as [|x c1], c2 as [|y c2]; cbn in *; try congruence. assert (y = x) as -> by congruence. by apply (chain_unique h' _ _ x); [..|left|left]. }
  rewrite Es, Ev, shapes_stacked. f_equal. f_equal. pose proof (Forall2_length _ _ _ Fv) as L. clear -L. revert L. generalize (map fst sel). intros ds L. revert ds L. induction vss as [|v vss IH]; intros [|d ds] L; try discriminate L; [done|]. cbn [zip_with]. f_equal. apply IH. by injection L.
Qed.
(** The hypotheses are met, for example, by two files. *)
Definition ex_decl : str := $"func g() {}" ++ [c_nl].
Example ex_C71 : Forall (Forall (fun d => (complete d /\ begins_scope d) /\ reproduced d)) [[$"package p" ++ [c_nl]; ex_decl]; [decl_t]].
Proof.
  assert (D : forall text h n, extract src_ord [] text = Ok (h, head (seq 0 n)) -> chain h (seq 0 n) -> decl_check (map (pay h) (seq 0 n)) = true -> (complete text /\ begins_scope text) /\ reproduced text).
  { intros text h n E C H. eapply decl_checked; [by eapply tokens_of|exact H]. }
  assert (D1 := D ($"package p" ++ [c_nl]) _ 4 ltac:(vm_compute; reflexivity) ltac:(vm_compute; repeat split; lia) ltac:(vm_compute; reflexivity)).
  assert (D2 := D ex_decl _ 9 ltac:(vm_compute; reflexivity) ltac:(vm_compute; repeat split; lia) ltac:(vm_compute; reflexivity)).
  assert (D4 := D decl_t _ 16 ltac:(vm_compute; reflexivity) ltac:(vm_compute; repeat split; lia) ltac:(vm_compute; reflexivity)).
  apply Forall_cons; split; [apply Forall_cons; split; [exact D1|apply Forall_cons; split; [exact D2|by apply Forall_nil]]|].
  apply Forall_cons; split; [apply Forall_cons; split; [exact D4|by apply Forall_nil]|by apply Forall_nil].
Qed.
(** The type of the second file put between package clause and function of the first. *)
Example ex_C71_run :
  match parse_scope src_ord [] 0 ($"package p" ++ [c_nl] ++ ex_decl) with
  | Ok (h1, [p; f]) => match parse_scope src_ord h1 0 decl_t with
                       | Ok (h2, [t]) => save_text h2 [Some p; Some t; Some f] = Ok ($"package p" ++ [c_nl] ++ decl_t ++ ex_decl)
                       | _ => False end
  | _ => False end.
Proof. vm_compute. reflexivity. Qed.
