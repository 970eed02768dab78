(** The grammar of SpecGo.v: spelling, brackets and lines of its sentences. *)
From Verif Require Import SpecGo Opaque LexSpecProofs LexRun P_Lex P_Spell P_Get HeaderProofs GoProofs GoCalm.

Scheme ty_mut := Induction for ty Sort Prop with plist_mut := Induction for plist Sort Prop.
Combined Scheme ty_plist_ind from ty_mut, plist_mut.

Lemma sf_lit (s : str) k ts : forallb (fun c => bool_decide (c ∈ separators)) s && (length s =? 1) = true -> sep_first ((s, k) :: ts).
Proof.
  intros H. apply andb_true_iff in H as [H1 H2]. apply Nat.eqb_eq in H2. destruct s as [|c [|? s]]; [done| |done]. exists c. split; [|done].
  cbn in H1. apply andb_true_iff in H1 as [H1 _]. by apply bool_decide_eq_true in H1.
Qed.
Ltac sf := apply sf_lit; reflexivity.
Ltac plain_lit := apply plain_check; [discriminate|reflexivity].

Lemma param_plain n : param_name n -> plain_word n.
Proof. intros [[W _]| ->]; [done|]. plain_lit. Qed.

(** ** Pieces in one line *)
Section Pieces.
Context {ml : bool}.
Local Notation inline := (lines ml).
Lemma il_space c ts : inline c ts -> inline c (lx $" " :: ts). Proof. apply (il_sep c c_sp). left. Qed.
Lemma il_comma c ts : inline c ts -> inline c (lx $"," :: ts). Proof. apply (il_sep c ","%char). right. left. Qed.
Lemma il_tab c ts : inline c ts -> inline c (lx [c_tab] :: ts). Proof. apply (il_sep c c_tab). right. right. left. Qed.
Lemma il_index c w ts : plain_word w -> inline c ts -> inline c (lx $"[" :: lx w :: lx $"]" :: ts).
Proof.
  intros W H. apply (il_pair c "["%char "]"%char [lx w] ts); [right; left|discriminate| |done]. apply il_word; [done|done|constructor].
Qed.
Lemma il_empty_index c ts : inline c ts -> inline c (lx $"[" :: lx $"]" :: ts).
Proof. intros H. apply (il_pair c "["%char "]"%char [] ts); [right; left|discriminate|constructor|done]. Qed.
Lemma il_parens c xs ts : inline true xs -> inline c ts -> inline c (lx $"(" :: xs ++ lx $")" :: ts).
Proof. intros X H. apply (il_pair c "("%char ")"%char xs ts); [left|discriminate|done|done]. Qed.
Lemma il_squares c xs ts : inline true xs -> inline c ts -> inline c (lx $"[" :: xs ++ lx $"]" :: ts).
Proof. intros X H. apply (il_pair c "["%char "]"%char xs ts); [right; left|discriminate|done|done]. Qed.
Lemma il_one c w ts : plain_word w -> sep_first ts -> inline c ts -> inline c (lx w :: ts). Proof. apply il_word. Qed.
Lemma map_plain m : m = $"map" \/ ident m -> plain_word m. Proof. intros [-> |[W _]]; [plain_lit|done]. Qed.
Lemma chan_plain m : m = $"chan" \/ ident m -> plain_word m. Proof. intros [-> |[W _]]; [plain_lit|done]. Qed.
Lemma empty_plain w : w ∈ [$"interface"; $"struct"] \/ ident w -> plain_word w.
Proof. rewrite !elem_of_cons, elem_of_nil. intros [[-> |[-> |[]]]|[W _]]; [plain_lit|plain_lit|done]. Qed.
Lemma bracket_first t : match t with TSlice _ | TArray _ _ => True | _ => False end -> sep_first (ty_out source t).
Proof. destruct t; try done; intros _; sf. Qed.
Lemma ty_inline_all : (forall t, ty_ok t -> inline true (ty_out source t)) /\ (forall ps, ps_ok ps \/ args_ok ps -> inline true (ps_out source ps)).
Proof.
  apply ty_plist_ind; cbn [ty_ok ps_ok args_ok ty_out ps_out source p_type p_index p_name]; change (inside source) with source.
  - intros w [W _]. apply il_word; [done|done|constructor].
  - intros w args IH ([W _] & _ & A & _). apply il_word; [done|sf|]. apply il_squares; [apply IH; by right|constructor].
  - intros t IH H. apply il_empty_index, IH, H.
  - intros n t IH [[N _] H]. apply il_index; [done|]. by apply IH.
  - intros m k IHk t IHt (M & K & _ & H). apply il_word; [by apply map_plain|sf|]. apply il_squares; [by apply IHk|]. by apply IHt.
  - intros c t IH [C H]. apply il_word; [by apply chan_plain|sf|]. apply il_space, IH, H.
  - intros w H. apply il_word; [by apply empty_plain|sf|]. apply (il_pair true "{"%char "}"%char [] []); [right; right; left|done|constructor|constructor].
  - intros s t IH ([W _] & H & B). apply il_word; [done|by apply bracket_first|]. by apply IH.
  - intros ps IH H. apply il_word; [plain_lit|sf|]. apply il_parens; [apply IH; by left|constructor].
  - intros ps IH r IHr [H Hr]. apply il_word; [plain_lit|sf|]. apply il_parens; [apply IH; by left|]. apply il_space. by apply IHr.
  - intros _. constructor.
  - intros o t IHt rest IHr H. rewrite source_out.
    assert (H' : match o with Some n => param_name n | None => True end /\ ty_ok t /\ (ps_ok rest \/ args_ok rest)) by (destruct H as [(Ho & Ht & Hr)|(-> & Ht & Hr)]; [split; [by destruct o|]; split; [done|by left]|split; [done|]; split; [done|by right]]).
    destruct H' as (Ho & Ht & Hr). clear H.
    assert (X : inline true (match rest with PNil => [] | PCons _ _ _ => lx $"," :: lx $" " :: ps_out source rest end) /\ sep_first (match rest with PNil => [] | PCons _ _ _ => lx $"," :: lx $" " :: ps_out source rest end)).
    { destruct rest; [split; [constructor|done]|]. split; [|sf]. apply il_comma, il_space, IHr, Hr. }
    destruct X as [X1 X2]. assert (Y : inline true (ty_out source t ++ match rest with PNil => [] | PCons _ _ _ => lx $"," :: lx $" " :: ps_out source rest end)) by (apply inline_app; [by apply IHt|done|done]).
    destruct o as [n|]; [|exact Y]. cbn [app]. apply il_word; [by apply param_plain|sf|]. apply il_space, Y.
Qed.
Lemma ty_inline : (forall t, ty_ok t -> inline true (ty_out source t)) /\ (forall ps, ps_ok ps -> inline true (ps_out source ps)).
Proof. split; [apply ty_inline_all|]. intros ps H. apply ty_inline_all. by left. Qed.
Lemma args_inline ps : args_ok ps -> inline true (ps_out source ps).
Proof. intros H. apply ty_inline_all. by right. Qed.
Lemma parens_inline c ps ts : ps_ok ps -> inline c ts -> inline c (in_parens (ps_out source ps) ++ ts).
Proof. intros P H. unfold in_parens. cbn [app]. rewrite <- app_assoc. cbn [app]. apply il_parens; [by apply ty_inline|done]. Qed.
Lemma tps_line tps : tps_ok tps -> inline true (map lx tps).
Proof.
  intros (M & F & A). induction M as [|t ts N M IH|o c ts ts' P M IH M' IH'].
  - constructor.
  - apply Forall_cons in F as [[W|W] F].
    + assert (Hi : inline true (map lx ts)) by (apply IH; [done|]; intros xs a b ys E; apply (A (t :: xs) a b ys); by rewrite E).
      cbn [map]. apply il_word; [done| |done]. destruct ts as [|u ts]; [done|]. apply Forall_cons in F as [[Wu|Wu] F]; [by destruct (A [] t u ts eq_refl)|].
      cbn [map sep_first lx]. clear -Wu. assert (X : Forall (fun u => exists c, c ∈ separators /\ u = [c]) [$" "; $","; $"("; $")"; $"["; $"]"; $"{"; $"}"]).
      { repeat (constructor; [eexists; split; [|reflexivity]; eapply bool_decide_unpack; vm_compute; exact Logic.I|]). constructor. }
      rewrite Forall_forall in X. by apply X.
    + assert (Hi : inline true (map lx ts)) by (apply IH; [done|]; intros xs a b ys E; apply (A (t :: xs) a b ys); by rewrite E).
      cbn [map]. assert (X : t = $" " \/ t = $",") by (rewrite !elem_of_cons, elem_of_nil in *; tauto). destruct X as [-> | ->]; [by apply il_space|by apply il_comma].
  - apply Forall_cons in F as [_ F]. apply Forall_app in F as [F1 F]. apply Forall_cons in F as [_ F2].
    assert (H1 : inline true (map lx ts)) by (apply IH; [done|]; intros xs a b ys E; apply (A (o :: xs) a b (ys ++ c :: ts')); rewrite E; cbn [app]; by rewrite <- app_assoc).
    assert (H2 : inline true (map lx ts')) by (apply IH'; [done|]; intros xs a b ys E; apply (A (o :: ts ++ c :: xs) a b ys); rewrite E; cbn [app]; by rewrite <- app_assoc).
    cbn [map]. rewrite map_app. cbn [map]. rewrite !elem_of_cons, elem_of_nil in P. destruct P as [P|[P|[P|[]]]]; injection P as -> ->.
    + by apply il_parens.
    + by apply il_squares.
    + apply (il_pair true "{"%char "}"%char); [right; right; left|done|done|done].
Qed.
Lemma tps_inline c tps ts : tps_ok tps -> inline c ts -> inline c (tps_out tps ++ ts).
Proof.
  intros P H. destruct tps as [|t tps]; [done|]. unfold tps_out. cbn [app]. rewrite <- app_assoc. cbn [app]. apply il_squares; [by apply tps_line|done].
Qed.
Lemma tabs_inline c n ts : inline c ts -> inline c (tabs n ++ ts).
Proof. intros H. induction n as [|n IH]; [done|]. cbn [tabs repeat app]. by apply il_tab. Qed.
Definition is_flat (g : pgroup) : Prop := match g with Rows _ _ | CallRows _ _ _ _ _ _ _ => False | _ => True end.
Lemma several_inline c rs ts : rs = PNil \/ ps_ok rs -> inline c ts -> inline c (several source rs ++ ts).
Proof.
  intros P H. destruct rs as [|o t r]; [done|]. destruct P as [P|P]; [discriminate P|]. unfold several. cbn [app]. apply il_space. by apply parens_inline.
Qed.
Lemma call_inline o w fs ts : match o with Some n => param_name n | None => True end -> ident w -> ps_ok fs -> inline true ts -> inline true (call_out source o w fs ++ ts).
Proof.
  intros O [W _] F H. unfold call_out. rewrite first_source. cbn [p_type p_name source].
  assert (X : inline true (lx w :: (lx $"(" :: ps_out source fs ++ [lx $")"]) ++ ts)) by (apply il_word; [done|sf|]; by apply parens_inline).
  replace (if reads_as_type o (TFunc fs) then lx w else lx w) with (lx w) by (by destruct (reads_as_type o (TFunc fs))).
  destruct o as [n|]; [|exact X]. cbn [app]. apply il_word; [by apply param_plain|sf|]. apply il_space. exact X.
Qed.
Lemma before_inline ps ts : ps_ok ps -> inline true ts -> inline true (before_last source ps ++ ts).
Proof.
  intros P H. destruct ps as [|o t r]; [done|]. unfold before_last. rewrite <- app_assoc. cbn [app]. apply inline_app; [by apply ty_inline|by apply il_comma, il_space|sf].
Qed.
Lemma rows_inline n rows ts : ml = true -> Forall (fun r : plist * option str => fst r <> PNil /\ ps_ok (fst r) /\ match snd r with Some c => c_nl ∉ c | None => True end) rows ->
  inline true ts -> inline true (concat (map (prow_out source n) rows) ++ ts).
Proof.
  intros M P H. induction P as [|[ps o] rows (Ne & Pr & Ho) P IH]; [exact H|]. cbn [map concat]. rewrite <- app_assoc.
  unfold prow_out at 1. cbn [fst snd] in *. rewrite <- !app_assoc. apply (tabs_inline true (S n)). apply inline_app; [by apply ty_inline| |sf].
  cbn [app]. rewrite <- app_assoc. cbn [app]. apply il_comma. destruct o as [t|]; cbn [app]; [apply il_space; by apply il_note|by apply il_break].
Qed.
Lemma group_inline c g ts : ml = true \/ is_flat g -> group_ok g -> inline c ts -> inline c (group_out source g ++ ts).
Proof.
  intros M P H. destruct g as [ps|n rows|ps o w fs rs|n rows o w fs rs note]; [by apply parens_inline| | |].
  - destruct M as [M|[]]. cbn [group_out group_ok] in *. unfold in_parens. cbn [app]. rewrite <- app_assoc. cbn [app].
    apply (il_parens c (lx [c_nl] :: _)); [|done]. apply il_break; [done|]. apply rows_inline; [done..|]. rewrite <- (app_nil_r (tabs n)). apply tabs_inline. constructor.
  - destruct P as (P1 & P2 & P3 & P4 & P5). cbn [group_out]. unfold in_parens. cbn [app]. rewrite <- app_assoc. cbn [app]. apply il_parens; [|done].
    apply before_inline; [done|]. apply call_inline; [done..|]. rewrite <- (app_nil_r (several source rs)). apply several_inline; [by right|constructor].
  - destruct M as [M|[]]. destruct P as (P1 & P2 & P3 & P4 & P5 & P6). cbn [group_out]. unfold in_parens. cbn [app]. rewrite <- app_assoc. cbn [app].
    apply (il_parens c (lx [c_nl] :: _)); [|done]. apply il_break; [done|]. apply rows_inline; [done..|]. apply (tabs_inline true (S n)). apply call_inline; [done..|]. apply several_inline; [by right|].
    apply il_comma. assert (X : inline true (tabs n)) by (rewrite <- (app_nil_r (tabs n)); apply tabs_inline; constructor).
    destruct note as [t|]; cbn [note_part app]; [apply il_space; by apply il_note|by apply il_break].
Qed.
Lemma sf_several rs ts : sep_first ts -> sep_first (several source rs ++ ts).
Proof. intros H. destruct rs; [done|]. unfold several. sf. Qed.
Lemma typed_inline t rs : ty_ok t -> rs = PNil \/ ps_ok rs -> inline true (ty_out source t ++ several source rs).
Proof.
  intros T P. assert (X : inline true (several source rs)) by (rewrite <- (app_nil_r (several source rs)); apply several_inline; [done|constructor]).
  apply inline_app; [by apply ty_inline|done|]. rewrite <- (app_nil_r (several source rs)). by apply sf_several.
Qed.
Definition flat_result (r : result) : Prop := match r with RMany g => is_flat g | _ => True end.
Lemma sf_group g ts : sep_first (group_out source g ++ ts).
Proof. destruct g; sf. Qed.
Definition res_fine (r : result) : Prop := match r with RNone => True | ROne t => ty_ok t | RFunc t rs => ty_ok t /\ ps_ok rs | RMany g => group_ok g /\ listed g end.
Lemma res_ok_fine r : res_ok r -> res_fine r. Proof. destruct r; [done|by intros [A _]|by intros (A & _ & _ & B)|done]. Qed.
Lemma fres_ok_fine r : fres_ok r -> res_fine r. Proof. destruct r; [done|by intros [A _]|by intros (A & _ & _ & B)|done]. Qed.
Lemma res_inline r ts : ml = true \/ flat_result r -> res_fine r -> inline true ts -> sep_first ts -> inline true (res_src r ++ ts).
Proof.
  intros M R H S. destruct r as [|t|t rs|ps]; [done|..]; cbn [res_src app].
  - apply il_space. apply inline_app; [by apply ty_inline|done|done].
  - apply il_space. apply inline_app; [apply typed_inline; [apply R|right; apply R]|done|done].
  - apply il_space. apply group_inline; [done|apply R|done].
Qed.
Lemma sf_tps tps ts : sep_first ts -> sep_first (tps_out tps ++ ts).
Proof. destruct tps; [done|]. intros _. sf. Qed.
Lemma sf_res r ts : sep_first ts -> sep_first (res_src r ++ ts).
Proof. destruct r; [done|..]; intros _; sf. Qed.
(** The first line of a declaration *)
Lemma head_inline name tps ts : ident name -> tps_ok tps -> inline true ts -> inline true (type_head (lx name) tps ++ ts).
Proof.
  intros [N _] T H. unfold type_head. cbn [app]. rewrite <- app_assoc. apply il_word; [plain_lit|sf|]. apply il_space, il_word; [done|apply sf_tps; sf|].
  apply tps_inline; [done|]. by apply il_space.
Qed.
Definition func_head (recv : option (option str * ty)) (name : str) (tps : list str) (ps : pgroup) (r : result) : list lexeme :=
  recv_out source recv ++ lx name :: tps_out tps ++ group_out source ps ++ res_src r.
Lemma func_head_inline recv name tps ps r : match recv with Some (o, t) => ps_ok (PCons o t PNil) /\ no_func t | None => True end ->
  ml = true \/ (is_flat ps /\ flat_result r) -> ident name -> tps_ok tps -> group_ok ps -> res_ok r -> inline true (lx $"func" :: lx $" " :: func_head recv name tps ps r).
Proof.
  intros R M [N _] T P Re. apply il_word; [plain_lit|sf|]. apply il_space. unfold func_head.
  assert (X : inline true (lx name :: tps_out tps ++ group_out source ps ++ res_src r)).
  { apply il_word; [done|apply sf_tps, sf_group|]. apply tps_inline; [done|]. apply group_inline; [tauto|done|]. rewrite <- (app_nil_r (res_src r)). apply res_inline; [tauto|by apply res_ok_fine|constructor|done]. }
  destruct recv as [[o t]|]; [|done]. unfold recv_out. rewrite <- app_assoc. apply parens_inline; [apply R|]. cbn [app]. by apply il_space.
Qed.
End Pieces.

(** ** Spelling *)
Lemma spelled_swap l : spelled l -> match l with [] => True | (t, k) :: ts => forall ts', head ts' = head ts -> spelled ts' -> spelled ((t, k) :: ts') end.
Proof.
  intros Sp. destruct Sp as [|c ts Hc Sp|w ts Gw Aw Sp|d u ts Nd W Sp|b k0 ts0 Nb Sp]; [done|..]; intros ts' Hd Sp'.
  - by apply sp_sep.
  - apply sp_word; [done| |done]. destruct ts as [|x ts], ts' as [|x' ts']; try done. injection Hd as ->. exact Aw.
  - by apply sp_delim.
  - destruct ts' as [|x' ts']; [done|]. injection Hd as ->. by apply sp_line.
Qed.
Lemma spelled_join xs c ts : spelled (xs ++ [lx [c]]) -> c ∈ separators -> spelled ts -> spelled (xs ++ lx [c] :: ts).
Proof.
  intros Sp Hc St. induction xs as [|[t k] xs IH]; cbn [app] in *; [by apply sp_sep|].
  apply (spelled_swap _ Sp); [by destruct xs|]. apply IH. by eapply spelled_tail.
Qed.
Lemma nl_sep : c_nl ∈ separators. Proof. eapply bool_decide_unpack. vm_compute. exact Logic.I. Qed.
Lemma spelled_nl ts : spelled ts -> spelled (lx [c_nl] :: ts). Proof. intros H. apply sp_sep; [apply nl_sep|done]. Qed.
Lemma spelled_blank n : spelled (blank n).
Proof. induction n as [|n IH]; [constructor|]. cbn [blank repeat]. by apply spelled_nl. Qed.
Lemma spelled_seps (cs : list ascii) ts : forallb (fun c => bool_decide (c ∈ separators)) cs = true -> spelled ts -> spelled (map (fun c => lx [c]) cs ++ ts).
Proof.
  induction cs as [|c cs IH]; intros H Sp; [done|]. cbn in H. apply andb_true_iff in H as [H1 H2]. cbn [map app]. apply sp_sep; [by apply bool_decide_eq_true in H1|auto].
Qed.
Lemma spelled_spaces n ts : spelled ts -> spelled (spaces n ++ ts).
Proof. intros Sp. induction n as [|n IH]; [done|]. cbn [spaces repeat app]. apply (sp_sep c_sp); [apply (in_seps [c_sp]); [reflexivity|left]|exact IH]. Qed.
Lemma spelled_comment c ts : c_nl ∉ c -> spelled ts -> spelled (comment c :: lx [c_nl] :: ts).
Proof. intros N Sp. apply sp_line; [done|]. by apply spelled_nl. Qed.
Lemma spelled_tab ts : spelled ts -> spelled (lx [c_tab] :: ts).
Proof. apply sp_sep. apply (in_seps [c_tab]); [reflexivity|left]. Qed.
Lemma spelled_tail_out tag note ts : tag_ok tag -> note_ok note -> spelled ts -> spelled (tail_out tag note ++ lx [c_nl] :: ts) /\ sep_first (tail_out tag note ++ lx [c_nl] :: ts).
Proof.
  intros Ht Hn Sp. unfold tail_out. rewrite <- app_assoc.
  assert (X : spelled (match note with Some (n, c) => spaces (S n) ++ [comment c] | None => [] end ++ lx [c_nl] :: ts) /\ sep_first (match note with Some (n, c) => spaces (S n) ++ [comment c] | None => [] end ++ lx [c_nl] :: ts)).
  { destruct note as [[n c]|]; [|split; [by apply spelled_nl|sf]]. rewrite <- app_assoc. split; [|sf]. apply spelled_spaces. cbn [app]. by apply spelled_comment. }
  destruct X as [X1 X2]. destruct tag as [[n t]|]; [|done]. rewrite <- app_assoc. split; [|sf]. apply spelled_spaces. cbn [app].
  destruct Ht as [[W|W] _]; [by apply (sp_delim DString)|by apply (sp_delim DRaw)].
Qed.
Section Pieces2.
Context {ml : bool}.
Local Notation inline := (lines ml).
Lemma field_names_inline c n more ts : plain_word n -> Forall ident more -> inline c ts -> sep_first ts ->
  inline c (lx n :: concat (map (fun m => [lx $","; lx $" "; lx m]) more) ++ ts) /\ sep_first (concat (map (fun m => [lx $","; lx $" "; lx m]) more) ++ ts).
Proof.
  intros N F H Sf. assert (X : inline c (concat (map (fun m => [lx $","; lx $" "; lx m]) more) ++ ts) /\ sep_first (concat (map (fun m => [lx $","; lx $" "; lx m]) more) ++ ts)).
  { induction F as [|m more [M _] F [IH1 IH2]]; [done|]. cbn [map concat app]. split; [|sf]. apply il_comma, il_space, il_word; [done|exact IH2|exact IH1]. }
  destruct X as [X1 X2]. split; [|done]. by apply il_word.
Qed.
Lemma spaces_inline c n ts : inline c ts -> inline c (spaces n ++ ts).
Proof. intros H. induction n as [|n IH]; [done|]. cbn [spaces repeat app]. by apply il_space. Qed.
Lemma names_split p n more pad X : names_out p n more pad ++ X = p_name p n :: concat (map (fun m => [lx $","; lx $" "; p_name p m]) more) ++ spaces (S pad) ++ X.
Proof. unfold names_out. cbn [app]. by rewrite <- app_assoc. Qed.
Lemma names_tail_inline c more pad X : Forall ident more -> inline c X -> inline c (concat (map (fun m => [lx $","; lx $" "; lx m]) more) ++ spaces (S pad) ++ X).
Proof.
  intros F T. assert (H : inline c (spaces (S pad) ++ X)) by (by apply (spaces_inline _ (S pad))).
  assert (Sf : sep_first (spaces (S pad) ++ X)) by sf. revert H Sf. generalize (spaces (S pad) ++ X). intros ts H Sf.
  assert (Y : inline c (concat (map (fun m => [lx $","; lx $" "; lx m]) more) ++ ts) /\ sep_first (concat (map (fun m => [lx $","; lx $" "; lx m]) more) ++ ts)); [|apply Y].
  induction F as [|m more [M _] F [IH1 IH2]]; [done|]. cbn [map concat app]. split; [|sf]. apply il_comma, il_space, il_word; [done|exact IH2|exact IH1].
Qed.
Lemma names_plain n more : names_ok n more -> plain_word n /\ Forall ident more.
Proof. intros [[[N _] F]|[-> ->]]; [done|]. split; [plain_lit|constructor]. Qed.
Lemma names_inline c n more pad X : names_ok n more -> inline c X -> inline c (names_out source n more pad ++ X).
Proof.
  intros [N F]%names_plain T. rewrite names_split. cbn [source p_name]. apply field_names_inline; [done|done| |sf]. by apply (spaces_inline _ (S pad)).
Qed.
Lemma holders_inline c hs X : Forall holder_ok hs -> inline c X -> inline c (concat (map (holder_out source) hs) ++ X).
Proof.
  intros F T. induction F as [|h hs H F IH]; [done|]. cbn [map concat]. rewrite <- app_assoc. revert IH. generalize (concat (map (holder_out source) hs) ++ X). intros ts IH.
  destruct h as [|m|m k]; cbn [holder_out holder_ok source p_index p_type app] in *; change (inside source) with source.
  - by apply il_empty_index.
  - by apply il_index; [apply H|].
  - destruct H as (M & K & _). rewrite <- app_assoc. cbn [app]. apply il_word; [by apply map_plain|sf|]. apply il_squares; [by apply ty_inline|done].
Qed.
Lemma open_plain w : w = $"struct" \/ ident w -> plain_word w. Proof. intros [-> |[W _]]; [plain_lit|done]. Qed.
Lemma open_inline c hs w : Forall holder_ok hs -> w = $"struct" \/ ident w -> inline c (concat (map (holder_out source) hs) ++ [lx w]).
Proof. intros F W. apply holders_inline; [done|]. apply il_word; [by apply open_plain|done|constructor]. Qed.
End Pieces2.
Lemma spelled_tabs d ts : spelled ts -> spelled (tabs d ++ ts).
Proof. intros H. induction d as [|d IH]; [done|]. cbn [tabs repeat app]. by apply spelled_tab. Qed.
Lemma embed_source t tail : embed_out source t tail = ty_out source t.
Proof. by destruct t, tail. Qed.
Lemma row_results t rs : rs = PNil \/ ends_func t /\ ps_ok rs /\ ps_no_func rs -> rs = PNil \/ ps_ok rs.
Proof. intros [R|(_ & R & _)]; [by left|by right]. Qed.
Lemma srow_spelled d r ts : srow_ok r -> spelled ts -> spelled (srow_out source d r ++ ts).
Proof.
  assert (Cu : forall c, c ∈ ["{"%char; "}"%char] -> c ∈ separators) by (apply in_seps; reflexivity).
  destruct r as [n more pad t rs tag note|n more pad hs w|tag note|t tag note|c|]; cbn [srow_ok srow_out]; rewrite ?embed_source.
  - intros (N & T & Rs & Ht & Hn) Sp. rewrite <- app_assoc. apply spelled_tabs. destruct (spelled_tail_out tag note ts Ht Hn Sp) as [X1 X2].
    pose proof (inline_spelled (ml := true) _ _ _ (names_inline _ n more pad _ N (typed_inline t rs T (row_results t rs Rs))) X2 X1) as Y. repeat (rewrite <- ?app_assoc in *; cbn [app] in * ). exact Y.
  - intros (N & Hs & W) Sp. rewrite <- app_assoc. apply spelled_tabs.
    assert (X1 : spelled (lx $" " :: lx $"{" :: lx [c_nl] :: ts)) by (apply (spelled_spaces 1); apply (sp_sep "{"%char); [apply Cu; left|by apply spelled_nl]).
    assert (X2 : sep_first (lx $" " :: lx $"{" :: lx [c_nl] :: ts)) by sf.
    pose proof (inline_spelled (ml := true) _ _ _ (names_inline true n more pad _ N (open_inline _ hs w Hs W)) X2 X1) as Y. repeat (rewrite <- ?app_assoc in *; cbn [app] in * ). exact Y.
  - intros (Ht & Hn) Sp. rewrite <- app_assoc. apply spelled_tabs. cbn [app]. rewrite <- app_assoc. apply (sp_sep "}"%char); [apply Cu; right; left|]. by apply (spelled_tail_out tag note ts).
  - intros (T & _ & Ht & Hn) Sp. rewrite <- app_assoc. apply spelled_tabs. destruct (spelled_tail_out tag note ts Ht Hn Sp) as [X1 X2].
    pose proof (inline_spelled (ml := true) _ _ _ (proj1 ty_inline t T) X2 X1) as Y. repeat (rewrite <- ?app_assoc in *; cbn [app] in * ). exact Y.
  - intros N Sp. rewrite <- app_assoc. apply spelled_tabs. cbn [app]. by apply spelled_comment.
  - intros _ Sp. by apply spelled_nl.
Qed.
Lemma srows_spelled rows : forall d ts, srows_ok d rows -> spelled ts -> spelled (srows_out source d rows ++ ts).
Proof.
  induction rows as [|r rows IH]; [done|]. intros d ts [R Rs] Sp. cbn [srows_ok srows_out] in *.
  destruct r as [n more pad t rs tag note|n more pad hs w|tag note|t tag note|c|]; rewrite <- app_assoc; apply srow_spelled; try done; apply IH; try done. apply Rs.
Qed.
Definition method_line (n : str) (ps : pgroup) (r : result) : list lexeme := lx n :: group_out source ps ++ res_src r.
Lemma method_line_inline n ps r : ident n -> group_ok ps -> res_ok r -> lines true true (method_line n ps r).
Proof.
  intros [N _] P R. apply il_word; [done|apply sf_group|]. apply group_inline; [by left|done|]. rewrite <- (app_nil_r (res_src r)). apply res_inline; [by left|by apply res_ok_fine|constructor|done].
Qed.
Lemma note_spelled note ts : match note with Some c => c_nl ∉ c | None => True end -> spelled ts -> spelled (note_out note ++ ts) /\ sep_first (note_out note ++ ts).
Proof.
  intros Hn Sp. destruct note as [c|]; (split; [|sf]); [|by apply spelled_nl]. cbn [note_out app]. apply (spelled_spaces 1). by apply spelled_comment.
Qed.
Lemma irow_spelled r ts : irow_ok r -> spelled ts -> spelled (irow_src r ++ ts).
Proof.
  destruct r as [n ps r note|w more note|c|]; cbn [irow_ok irow_src].
  - intros (N & P & _ & R & _ & Hn) Sp. cbn [app]. apply spelled_tab.
    destruct (note_spelled note ts Hn Sp) as [X1 X2]. pose proof (inline_spelled _ _ _ (method_line_inline n ps r N P R) X2 X1) as Y. unfold method_line in Y. repeat (rewrite <- ?app_assoc in *; cbn [app] in * ). exact Y.
  - intros (_ & T & _ & Hn) Sp. cbn [app]. apply spelled_tab. rewrite <- app_assoc.
    destruct (note_spelled note ts Hn Sp) as [X1 X2]. pose proof (inline_spelled (ml := true) _ _ _ (tps_line _ T) X2 X1) as Y. cbn [map app] in Y. exact Y.
  - intros N Sp. cbn [app]. by apply spelled_tab, spelled_comment.
  - intros _ Sp. by apply spelled_nl.
Qed.
Lemma rows_spelled {A} (out : A -> list lexeme) (ok : A -> Prop) rows ts :
  (forall r ts, ok r -> spelled ts -> spelled (out r ++ ts)) -> Forall ok rows -> spelled ts -> spelled (concat (map out rows) ++ ts).
Proof. intros H F Sp. induction F as [|r rows Hr F IH]; [done|]. cbn [map concat]. rewrite <- app_assoc. by apply H. Qed.
Lemma code_spelled before after code ts : code_ok before (after ++ [lx [c_nl]]) code -> spelled ts -> spelled (before ++ code ++ after ++ lx [c_nl] :: ts).
Proof.
  intros (_ & Sp & _) St. pose proof (spelled_join (before ++ code ++ after) c_nl ts) as J. rewrite <- !app_assoc in J. by apply J; [|apply nl_sep|].
Qed.
Definition type_open (name : str) (tps : list str) (kw : str) : list lexeme := type_head (lx name) tps ++ [lx kw; lx $" "].
Lemma type_open_inline {ml} name tps kw : ident name -> tps_ok tps -> plain_word kw -> lines ml true (type_open name tps kw).
Proof. intros N T K. apply head_inline; [done|done|]. apply il_word; [done|sf|]. apply il_space. constructor. Qed.
Definition decl_line (d : decl) : list lexeme :=
  match d with
  | DFunc recv name tps ps r _ _ => lx $"func" :: lx $" " :: func_head recv name tps ps r
  | DStruct name tps _ _ => type_open name tps $"struct"
  | DInterface name tps _ _ => type_open name tps $"interface"
  | DType name tps alias t rs _ => type_head (lx name) tps ++ alias_out alias ++ ty_out source t ++ several source rs
  | DFuncType name tps ps r _ => type_head (lx name) tps ++ lx $"func" :: group_out source ps ++ res_src r
  | DGroup _ => [lx $"type"; lx $" "]
  | DOther kw _ => [lx kw]
  | _ => []
  end.
Definition decl_rest (d : decl) : list lexeme :=
  match d with
  | DFunc _ _ _ _ _ body note => body_out body ++ note_out note
  | DStruct _ _ rows note => lx $"{" :: lx [c_nl] :: srows_out source 1 rows ++ lx $"}" :: note_out note
  | DInterface _ _ rows note => lx $"{" :: lx [c_nl] :: concat (map irow_src rows) ++ lx $"}" :: note_out note
  | DGroup code => lx $"(" :: lx [c_nl] :: code ++ [lx $")"; lx [c_nl]]
  | DOther _ code => code ++ [lx [c_nl]]
  | DLineComment c => [comment c; lx [c_nl]]
  | DBlockComment c => [(c, KComment); lx [c_nl]]
  | DType _ _ _ _ _ note | DFuncType _ _ _ _ note => note_out note
  end.
Lemma decl_split d : decl_src d = decl_line d ++ decl_rest d.
Proof.
  destruct d; cbn [decl_src decl_line decl_rest]; unfold type_open, func_head; repeat (rewrite <- ?app_assoc; cbn [app]); try reflexivity.
Qed.
Lemma alias_inline {ml} alias ts : lines ml true ts -> lines ml true (alias_out alias ++ ts).
Proof. destruct alias; [|done]. intros H. apply il_word; [plain_lit|sf|]. by apply il_space. Qed.
Lemma keyword_plain kw : kw ∈ [$"package"; $"import"; $"var"; $"const"] -> plain_word kw.
Proof. rewrite !elem_of_cons, elem_of_nil. intros [->|[->|[->|[->|[]]]]]; plain_lit. Qed.
Definition flat_decl (d : decl) : Prop := match d with DFunc _ _ _ ps r _ _ | DFuncType _ _ ps r _ => is_flat ps /\ flat_result r | _ => True end.
Lemma decl_line_inline {ml} d : ml = true \/ flat_decl d -> decl_ok d -> lines ml true (decl_line d).
Proof.
  intros M. destruct d as [recv name tps ps r body note|name tps rows note|name tps rows note|name tps alias t rs note|name tps ps r note|code|kw code|c|c]; cbn [decl_ok decl_line flat_decl] in *.
  - intros (R & N & T & P & Re & _). by apply func_head_inline.
  - intros (N & T & _). apply type_open_inline; [done|done|plain_lit].
  - intros (N & T & _). apply type_open_inline; [done|done|plain_lit].
  - intros (N & T & Ht & _ & Er & _). apply head_inline; [done|done|]. apply alias_inline. apply typed_inline; [done|]. destruct Er as [-> |[_ P]]; [by left|by right].
  - intros (N & T & P & _ & R & _). apply head_inline; [done|done|]. apply il_word; [plain_lit|apply sf_group|]. apply group_inline; [tauto|done|].
    rewrite <- (app_nil_r (res_src r)). apply res_inline; [tauto|by apply fres_ok_fine|constructor|done].
  - intros _. apply il_word; [plain_lit|sf|]. apply il_space. constructor.
  - intros [K _]. apply il_word; [by apply keyword_plain|done|constructor].
  - intros _. constructor.
  - intros _. constructor.
Qed.
Lemma decl_spelled d k : decl_ok d -> spelled (decl_src d ++ blank k).
Proof.
  intros Ok. rewrite decl_split. pose proof (decl_line_inline (ml := true) d ltac:(by left) Ok) as I. pose proof (spelled_blank k) as Bl.
  assert (Sf : sep_first (decl_rest d ++ blank k) -> spelled (decl_rest d ++ blank k) -> spelled ((decl_line d ++ decl_rest d) ++ blank k)).
  { intros S1 S2. rewrite <- app_assoc. by eapply inline_spelled. }
  assert (Cu : forall c, c ∈ ["("%char; "{"%char; ")"%char; "}"%char] -> c ∈ separators) by (apply in_seps; reflexivity).
  destruct d as [recv name tps ps r body note|name tps rows note|name tps rows note|name tps alias t rs note|name tps ps r note|code|kw code|c|c]; cbn [decl_ok] in Ok.
  - destruct Ok as (_ & _ & _ & _ & _ & _ & Ok & Hn). destruct (note_spelled note (blank k) Hn Bl) as [Ns Nf].
    destruct body as [code|]; cbn [decl_rest body_out body_ok] in *; [|by apply Sf]. apply Sf; [sf|]. cbn [app]. apply (spelled_spaces 1).
    destruct Ok as (_ & Sp & _). pose proof (spelled_join (lx $"{" :: code) "}"%char (note_out note ++ blank k) Sp (Cu _ ltac:(right; right; right; left)) Ns) as J.
    cbn [app] in J. rewrite <- !app_assoc. cbn [app]. exact J.
  - destruct Ok as (_ & _ & Ok & Hn). destruct (note_spelled note (blank k) Hn Bl) as [Ns Nf]. apply Sf; [sf|]. cbn [decl_rest app]. apply (sp_sep "{"%char); [apply Cu; right; left|]. apply spelled_nl. rewrite <- app_assoc.
    apply srows_spelled; [done|]. cbn [app]. by apply (sp_sep "}"%char); [apply Cu; right; right; right; left|].
  - destruct Ok as (_ & _ & Ok & Hn). destruct (note_spelled note (blank k) Hn Bl) as [Ns Nf]. apply Sf; [sf|]. cbn [decl_rest app]. apply (sp_sep "{"%char); [apply Cu; right; left|]. apply spelled_nl. rewrite <- app_assoc.
    apply (rows_spelled _ irow_ok); [by apply irow_spelled|done|]. cbn [app]. by apply (sp_sep "}"%char); [apply Cu; right; right; right; left|].
  - destruct Ok as (_ & _ & _ & _ & _ & Hn). destruct (note_spelled note (blank k) Hn Bl) as [Ns Nf]. by apply Sf.
  - destruct Ok as (_ & _ & _ & _ & _ & _ & Hn). destruct (note_spelled note (blank k) Hn Bl) as [Ns Nf]. by apply Sf.
  - apply Sf; [sf|]. cbn [decl_rest app]. apply (sp_sep "("%char); [apply Cu; left|]. rewrite <- app_assoc. cbn [app]. exact (code_spelled [lx [c_nl]] [lx $")"] code (blank k) Ok Bl).
  - destruct Ok as [_ Ok]. cbn [decl_line decl_rest app]. rewrite <- app_assoc. exact (code_spelled [lx kw] [] code (blank k) Ok Bl).
  - cbn [decl_line decl_rest app]. by apply spelled_comment.
  - cbn [decl_line decl_rest app]. apply (sp_delim DBlock); [done|done|]. by apply spelled_nl.
Qed.

(** ** Brackets *)
Lemma delim_not_bracket d t : opener d `prefix_of` t -> t ∉ [$"("; $")"; $"["; $"]"; $"{"; $"}"].
Proof. intros [q ->]. destruct d; cbn [opener app]; rewrite !elem_of_cons, elem_of_nil; intuition discriminate. Qed.
Lemma matched_nl ts : matched ts -> matched ([c_nl] :: ts).
Proof. apply ma_other. apply sep_not_bracket. right. right. right. left. Qed.
Lemma matched_tab ts : matched ts -> matched ([c_tab] :: ts).
Proof. apply ma_other. apply sep_not_bracket. right. right. left. Qed.
Lemma matched_blank k : matched (map fst (blank k)).
Proof. induction k as [|k IH]; [constructor|]. cbn [blank repeat map fst lx]. by apply matched_nl. Qed.
Lemma matched_spaces k ts : matched ts -> matched (map fst (spaces k) ++ ts).
Proof. intros H. induction k as [|k IH]; [done|]. cbn [spaces repeat map fst lx app]. apply ma_other; [|exact IH]. apply (sep_not_bracket c_sp). left. Qed.
Lemma matched_comment c ts : matched ts -> matched (fst (comment c) :: ts).
Proof. apply ma_other. apply (delim_not_bracket DLine). by exists c. Qed.
Lemma matched_tabs d ts : matched ts -> matched (map fst (tabs d) ++ ts).
Proof. intros H. induction d as [|d IH]; [done|]. cbn [tabs repeat map fst lx app]. by apply matched_tab. Qed.
Lemma tail_matched tag note : tag_ok tag -> matched (map fst (tail_out tag note ++ [lx [c_nl]])).
Proof.
  intros Ht. unfold tail_out. rewrite <- app_assoc, map_app.
  assert (X : matched (map fst (match note with Some (n, c) => spaces (S n) ++ [comment c] | None => [] end ++ [lx [c_nl]]))).
  { destruct note as [[k c]|]; [|by apply matched_nl; constructor]. rewrite <- app_assoc, map_app. apply matched_spaces. cbn [map app]. apply matched_comment. by apply matched_nl; constructor. }
  destruct tag as [[k s]|]; [|exact X]. rewrite map_app, <- app_assoc. apply matched_spaces. cbn [map app fst]. apply ma_other; [|exact X].
  destruct Ht as [[[W _]|[W _]] _]; [apply (delim_not_bracket DString)|apply (delim_not_bracket DRaw)]; by apply closed_opener.
Qed.
(** Braces that are still open *)
Fixpoint deep (d : nat) (ts : list str) : Prop :=
  match d with
  | 0 => False
  | 1 => matched ts
  | S d => exists a b, ts = a ++ $"}" :: b /\ matched a /\ deep d b
  end.
Lemma deep_app d xs ts : matched xs -> deep d ts -> deep d (xs ++ ts).
Proof.
  intros M. destruct d as [|[|d]]; [done|by apply matched_app|]. intros (a & b & -> & Ma & H). exists (xs ++ a), b. split; [by rewrite app_assoc|]. split; [by apply matched_app|done].
Qed.
Lemma deep_open d ts : deep (S d) ts -> 1 <= d -> deep d ($"{" :: ts).
Proof.
  destruct d as [|d]; [lia|]. intros (a & b & -> & Ma & H) _. change ($"{" :: a ++ $"}" :: b) with ($"{" :: a ++ [$"}"] ++ b).
  pose proof (deep_app (S d) ($"{" :: a ++ [$"}"]) b (ma_pair $"{" $"}" a [] ltac:(right; right; left) Ma ma_nil) H) as X. cbn [app] in *. by rewrite <- app_assoc in X.
Qed.
Lemma deep_close d ts : 2 <= d -> deep (pred d) ts -> deep d ($"}" :: ts).
Proof. destruct d as [|[|d]]; [lia|lia|]. intros _ H. exists [], ts. split; [done|]. split; [constructor|done]. Qed.
Lemma srows_deep rows : forall d, 1 <= d -> srows_ok d rows -> deep d (map fst (srows_out source d rows)).
Proof.
  induction rows as [|r rows IH]; [by intros d _ ->; constructor|]. intros d D [R Rs]. cbn [srows_out].
  assert (Tb : forall e d ts, deep d ts -> deep d (map fst (tabs e) ++ ts)) by (intros e d' ts H; apply deep_app; [|done]; rewrite <- (app_nil_r (map fst _)); apply matched_tabs; constructor).
  assert (Nl : forall d ts, deep d ts -> deep d ([c_nl] :: ts)) by (intros d' ts H; apply (deep_app d' [[c_nl]]); [apply matched_nl; constructor|done]).
  destruct r as [n more pad t rs tag note|n more pad hs w|tag note|t tag note|c|]; cbn [srow_out srow_ok] in *; rewrite ?embed_source; repeat (rewrite ?map_app, <- ?app_assoc; cbn [map fst app]); try (apply Tb).
  - destruct R as (N & T & Rr & Ht & Hn). pose proof (deep_app d _ _ (inline_matched (ml := true) _ _ (names_inline true n more pad _ N (typed_inline t rs T (row_results t rs Rr)))) (deep_app d _ _ (tail_matched tag note Ht) (IH d D Rs))) as X.
    repeat (rewrite ?map_app, <- ?app_assoc in X; cbn [map fst app] in X). exact X.
  - destruct R as (N & Hs & W). pose proof (fun ts => deep_app d _ ts (inline_matched (ml := true) _ _ (names_inline true n more pad _ N (open_inline true hs w Hs W)))) as X.
    specialize (X ([c_sp] :: $"{" :: [c_nl] :: map fst (srows_out source (S d) rows))). repeat (rewrite ?map_app, <- ?app_assoc in X; cbn [map fst app] in X). apply X.
    apply (deep_app d [[c_sp]]); [apply ma_other; [apply (sep_not_bracket c_sp); left|constructor]|]. apply deep_open; [|done]. apply Nl, IH; [lia|done].
  - destruct R as (Ht & _), Rs as [L Rs]. apply deep_close; [done|]. pose proof (deep_app (pred d) _ _ (tail_matched tag note Ht) (IH (pred d) ltac:(lia) Rs)) as X.
    repeat (rewrite ?map_app, <- ?app_assoc in X; cbn [map fst app] in X). exact X.
  - destruct R as (T & _ & Ht & _). pose proof (deep_app d _ _ (inline_matched (ml := true) _ _ (proj1 ty_inline t T)) (deep_app d _ _ (tail_matched tag note Ht) (IH d D Rs))) as X.
    repeat (rewrite ?map_app, <- ?app_assoc in X; cbn [map fst app] in X). exact X.
  - apply (deep_app d [fst (comment c); [c_nl]]); [apply matched_comment; apply matched_nl; constructor|by apply IH].
  - by apply Nl, IH.
Qed.
Lemma srows_matched rows : srows_ok 1 rows -> matched (map fst (srows_out source 1 rows)).
Proof. intros H. apply (srows_deep rows 1); [lia|done]. Qed.
Lemma tps_tail w more : plain_word w -> tps_ok (w :: more) -> tps_ok more.
Proof.
  intros W (M & F & A). split.
  - apply plain_not_bracket in W. clear F A. remember (w :: more) as ts eqn:E. destruct M as [|t ts N M|o c ts ts' P M M']; [done|by injection E as -> ->|]. exfalso. injection E as -> _.
    apply W. clear -P. revert P. rewrite !elem_of_cons, !elem_of_nil. intros [P|[P|[P|[]]]]; injection P as -> _; tauto.
  - split; [by apply Forall_cons in F as [_ F]|]. intros xs t u ys E. apply (A (w :: xs) t u ys). by rewrite E.
Qed.
Lemma irow_line n ps r note : irow_src (IMethod n ps r note) = lx [c_tab] :: method_line n ps r ++ note_out note.
Proof. cbn [irow_src]. unfold method_line. repeat (rewrite <- ?app_assoc; cbn [app]). done. Qed.
Lemma irow_matched r ts : irow_ok r -> matched ts -> matched (map fst (irow_src r) ++ ts).
Proof.
  destruct r as [n ps r note|w more note|c|]; [rewrite irow_line|..]; cbn [irow_ok irow_src].
  - intros (N & P & _ & R & _ & Hn) M. cbn [map fst lx app]. apply matched_tab. rewrite !map_app, <- !app_assoc. apply matched_app; [eapply inline_matched; by apply method_line_inline|].
    destruct note as [c|]; cbn [note_out map app]; [apply (matched_spaces 1); cbn [map app]; apply matched_comment|]; by apply matched_nl.
  - intros (_ & T & _ & _) M. cbn [map fst lx app]. apply matched_tab. pose proof (inline_matched (ml := true) _ _ (tps_line _ T)) as X. rewrite map_app, <- app_assoc.
    apply (matched_app (map fst (map lx (w :: more)))); [done|]. destruct note as [c|]; cbn [note_out map app]; [apply (matched_spaces 1); cbn [map app]; apply matched_comment|]; by apply matched_nl.
  - intros N M. cbn [map fst lx app]. apply matched_tab, matched_comment. by apply matched_nl.
  - intros _ M. by apply matched_nl.
Qed.
Lemma rows_matched {A} (out : A -> list lexeme) (ok : A -> Prop) rows : (forall r ts, ok r -> matched ts -> matched (map fst (out r) ++ ts)) -> Forall ok rows -> matched (map fst (concat (map out rows))).
Proof. intros H F. induction F as [|r rows Hr F IH]; [constructor|]. cbn [map concat]. rewrite map_app. by apply H. Qed.
Lemma matched_braces o c (xs : list lexeme) ts : (o, c) ∈ [($"(", $")"); ($"[", $"]"); ($"{", $"}")] -> matched (map fst xs) -> matched ts -> matched (o :: map fst xs ++ c :: ts).
Proof. by apply ma_pair. Qed.
Lemma decl_matched d k : decl_ok d -> matched (map fst (decl_src d ++ blank k)).
Proof.
  intros Ok. rewrite decl_split, !map_app, <- app_assoc. apply matched_app; [eapply (inline_matched (ml := true)); apply decl_line_inline; [by left|done]|].
  pose proof (matched_blank k) as Mb.
  assert (Mn : forall note, matched (map fst (note_out note) ++ map fst (blank k))).
  { intros [c|]; cbn [note_out map app]; [apply (matched_spaces 1); cbn [map app]; apply matched_comment|]; by apply matched_nl. }
  destruct d as [recv name tps ps r body note|name tps rows note|name tps rows note|name tps alias t rs note|name tps ps r note|code|kw code|c|c]; cbn [decl_ok] in Ok; cbn [decl_rest map fst lx app]; rewrite ?map_app, <- ?app_assoc; cbn [map fst lx app].
  - destruct Ok as (_ & _ & _ & _ & _ & _ & Ok & _). destruct body as [code|]; cbn [body_out body_ok map fst lx app] in *; [|apply Mn]. apply (matched_spaces 1).
    rewrite map_app, <- app_assoc. apply matched_braces; [right; right; left|apply Ok|apply Mn].
  - destruct Ok as (_ & _ & Ok & _). apply (ma_pair $"{" $"}" ([c_nl] :: map fst _)); [right; right; left|apply matched_nl; by apply srows_matched|apply Mn].
  - destruct Ok as (_ & _ & Ok & _). apply (ma_pair $"{" $"}" ([c_nl] :: map fst _)); [right; right; left|apply matched_nl; by apply (rows_matched _ irow_ok); [apply irow_matched|]|apply Mn].
  - apply Mn.
  - apply Mn.
  - apply (ma_pair $"(" $")" ([c_nl] :: map fst code)); [left|apply matched_nl, Ok|by apply matched_nl].
  - apply matched_app; [apply Ok|by apply matched_nl].
  - apply matched_comment. by apply matched_nl.
  - apply ma_other; [apply (delim_not_bracket DBlock), closed_opener, Ok|by apply matched_nl].
Qed.

(** ** Lines *)
Definition anyhow (ts : list str) : Prop := forall p g st, closing_st st -> calm p g st ts.
Lemma anyhow_nl ts : anyhow ts -> anyhow ([c_nl] :: ts).
Proof. intros H p g st C. apply calm_nl; [done|]. apply H. by apply closing_false. Qed.
Lemma anyhow_blank k : anyhow (map fst (blank k)).
Proof. induction k as [|k IH]; [intros ? ? ? ?; constructor|]. cbn [blank repeat map fst lx]. by apply anyhow_nl. Qed.
Lemma closer_blank c k : c = ")"%char \/ c = "}"%char -> anyhow ([c] :: [c_nl] :: map fst (blank k)).
Proof.
  intros Hc p g st C. apply calm_silent; [|done]. constructor; [apply opener_not_begins; by apply closer_sep|]. constructor; [apply opener_not_begins, nl_sep|].
  induction k as [|k IH]; [constructor|]. cbn [blank repeat map fst lx]. constructor; [apply opener_not_begins, nl_sep|exact IH].
Qed.
Lemma calm_delim p g d t r st : opener d `prefix_of` t -> c_nl ∉ t -> closing_st st -> p = true -> calm true g st r -> calm p g st (t :: r).
Proof.
  intros O N C -> H. assert (Nb : forall c, c ∈ separators -> t <> [c]) by (intros c Hc ->; apply (sep_no_open c [] Hc); by exists d).
  apply cm_other; [|apply (Nb "("%char)|apply (Nb "{"%char)| |done|by apply count_nl_none|done].
  - intros [W _]. apply W. by exists d.
  - eapply bool_decide_unpack. vm_compute. exact Logic.I.
  - eapply bool_decide_unpack. vm_compute. exact Logic.I.
  - intros c g' st' ->. apply Forall_cons in C as [C _]. apply Nb. by apply closer_sep.
Qed.
Lemma calm_spaces n g st r : closing_st st -> calm true g st r -> calm true g st (map fst (spaces n) ++ r).
Proof.
  intros C H. induction n as [|n IH]; [done|]. cbn [spaces repeat map fst lx app].
  apply (calm_sep st true g c_sp); [apply (in_seps [c_sp]); [reflexivity|left]|discriminate..|done|exact IH].
Qed.
Lemma calm_tab p g st r : closing_st st -> calm true g st r -> calm p g st ([c_tab] :: r).
Proof. apply calm_sep; [apply (in_seps [c_tab]); [reflexivity|left]|discriminate..]. Qed.
Lemma comment_no_nl c : c_nl ∉ c -> c_nl ∉ fst (comment c).
Proof. intros N H. cbn [comment fst] in H. apply elem_of_app in H as [H|H]; [|done]. revert H. eapply bool_decide_unpack. vm_compute. exact Logic.I. Qed.
Lemma calm_comment c g st r : c_nl ∉ c -> closing_st st -> anyhow r -> calm true g st (fst (comment c) :: [c_nl] :: r).
Proof.
  intros N C H. apply (calm_delim _ _ DLine); [by exists c|by apply comment_no_nl|done|done|]. by apply anyhow_nl.
Qed.
(** Parameters in several lines *)
Lemma late_sep c ts : c ∈ separators -> c <> ")"%char -> c <> "}"%char -> c <> "("%char -> c <> "{"%char -> c <> c_nl -> late ts -> late ([c] :: ts).
Proof. intros ? ? ? ? ? ? H g st C. apply calm_sep; try done. by apply H. Qed.
Lemma late_space ts : late ts -> late ($" " :: ts).
Proof. apply late_sep; [apply (in_seps [c_sp]); [reflexivity|left]|discriminate..]. Qed.
Lemma anyhow_late ts : anyhow ts -> late ts. Proof. intros H g st C. by apply H. Qed.
Lemma calm_tabs n p g st r : closing_st st -> calm true g st r -> calm p g st (map fst (tabs (S n)) ++ r).
Proof.
  intros C H. cbn [tabs repeat map fst lx app]. apply calm_tab; [done|]. change (repeat (lx [c_tab]) n) with (tabs n). induction n as [|n IH]; [done|].
  cbn [tabs repeat map fst lx app]. by apply calm_tab.
Qed.
Lemma calm_lines c xs st r : lines false c xs -> closing_st st -> calm true true st r -> calm true true st (map fst xs ++ r).
Proof. intros H. by apply (calm_inline c xs H). Qed.
Lemma calm_word g st w r : plain_word w -> calm true true st r -> calm true g st (w :: r).
Proof. intros W H. apply cm_word; [by apply plain_is_word|done|done]. Qed.
Lemma calm_square g st c r : c = "["%char \/ c = "]"%char -> closing_st st -> calm true g st r -> calm true g st ([c] :: r).
Proof. intros [-> | ->]; (apply calm_sep; [apply (in_seps ["["%char; "]"%char]); [reflexivity|]|discriminate..]); [left|right; left]. Qed.
Lemma ty_calm t : ty_ok t -> forall g st r, closing_st st -> calm true true st r -> calm true g st (map fst (ty_out source t) ++ r).
Proof.
  induction t as [w|w args|t IH|n t IH|m k _ t IH|c t IH|w|s t IH|ps|ps r0 IH]; cbn [ty_ok]; intros Ok g st r C H.
  - apply calm_word; [apply Ok|done].
  - destruct Ok as ([W _] & _ & A & _). apply (calm_word g st w (map fst (lx $"[" :: ps_out source args ++ [lx $"]"]) ++ r)); [done|]. apply (calm_lines true); [|done|done]. apply il_squares; [by apply args_inline|constructor].
  - cbn [ty_out map fst lx app]. apply calm_square; [by left|done|]. apply calm_square; [by right|done|]. by apply IH.
  - destruct Ok as [[W _] Ok]. cbn [ty_out source p_index map fst lx app]. apply calm_square; [by left|done|]. apply calm_word; [done|]. apply calm_square; [by right|done|]. by apply IH.
  - destruct Ok as (M & K & _ & Ok). change (inside source) with source.
    apply (calm_word g st m (map fst (lx $"[" :: ty_out source k ++ lx $"]" :: ty_out source t) ++ r)); [by apply map_plain|].
    apply (calm_lines true); [|done|done]. apply il_squares; by apply ty_inline.
  - destruct Ok as (M & Ok). apply (calm_word g st c (map fst (lx $" " :: ty_out source t) ++ r)); [by apply chan_plain|].
    apply (calm_lines true); [|done|done]. apply il_space; by apply ty_inline.
  - apply (calm_word g st w (map fst [lx $"{"; lx $"}"] ++ r)); [by apply empty_plain|]. apply (calm_lines true); [|done|done]. apply (il_pair true "{"%char "}"%char [] []); [right; right; left|done|constructor|constructor].
  - destruct Ok as ([W _] & Ok & _). cbn [ty_out source p_type map fst lx app]. apply calm_word; [done|]. by apply IH.
  - apply (calm_word g st $"func" (map fst (lx $"(" :: ps_out source ps ++ [lx $")"]) ++ r)); [plain_lit|]. apply (calm_lines true); [|done|done]. apply il_parens; [by apply ty_inline|constructor].
  - destruct Ok as [P R]. apply (calm_word g st $"func" (map fst (lx $"(" :: ps_out source ps ++ lx $")" :: lx $" " :: ty_out source r0) ++ r)); [plain_lit|]. apply (calm_lines true); [|done|done]. apply il_parens; [by apply ty_inline|]. apply il_space. by apply ty_inline.
Qed.
Lemma tail_calm tag note g st ts : tag_ok tag -> note_ok note -> closing_st st -> anyhow ts -> calm true g st (map fst (tail_out tag note) ++ [c_nl] :: ts).
Proof.
  intros Ht Hn C M. unfold tail_out. rewrite map_app, <- app_assoc.
  assert (X : calm true g st (map fst (match note with Some (n, c) => spaces (S n) ++ [comment c] | None => [] end) ++ [c_nl] :: ts)).
  { destruct note as [[k c]|]; [|by apply anyhow_nl]. rewrite map_app, <- app_assoc. apply calm_spaces; [done|]. cbn [map app]. by apply calm_comment. }
  destruct tag as [[k s]|]; [|exact X]. rewrite map_app, <- app_assoc. apply calm_spaces; [done|]. cbn [map app fst].
  destruct Ht as [[[W _]|[W _]] Ns]; [apply (calm_delim _ _ DString)|apply (calm_delim _ _ DRaw)]; try done; by apply closed_opener.
Qed.
Lemma anyhow_tabs d ts : late ts -> anyhow (map fst (tabs (S d)) ++ ts).
Proof. intros L p g st C. apply calm_tabs; [done|]. by apply L. Qed.
Lemma late_close ts : late ts -> anyhow ($"}" :: ts).
Proof.
  intros L p g st C. assert (O : (forall c g' st', st = (c, g') :: st' -> $"}" <> [c]) -> calm p g st ($"}" :: ts)).
  { intros N. apply cm_other; [apply (sep_no_word "}"%char); apply (in_seps ["}"%char]); [reflexivity|left]|discriminate|discriminate|done| |reflexivity|by apply L].
    intros K. exfalso. revert K. apply opener_not_begins. apply (in_seps ["}"%char]); [reflexivity|left]. }
  destruct st as [|[c g'] st]; [apply O; done|]. destruct (decide (c = "}"%char)) as [-> |N].
  - apply cm_close. apply L. by apply Forall_cons in C as [_ C].
  - apply O. intros c' g2 st' E [= <-]. by injection E as -> _ _.
Qed.
Lemma srow_calm d r ts : srow_ok r -> 1 <= d -> anyhow ts -> anyhow (map fst (srow_out source d r) ++ ts).
Proof.
  destruct d as [|d]; [lia|].
  destruct r as [n more pad t rs tag note|n more pad hs w|tag note|t tag note|c|]; cbn [srow_ok srow_out]; rewrite ?embed_source; intros R _ M; rewrite ?map_app, <- ?app_assoc; try (apply anyhow_tabs; intros g st C).
  - destruct R as (Nf & T & Rr & Ht & Hn). destruct (names_plain n more Nf) as [N F]. pose proof (names_tail_inline (ml := false) true more pad _ F (typed_inline t rs T (row_results t rs Rr))) as I.
    pose proof (names_split source n more pad (ty_out source t ++ several source rs)) as E. change (inside source) with source.
    assert (E2 : forall us, map fst (names_out source n more pad) ++ map fst (ty_out source t) ++ map fst (several source rs) ++ us = map fst (names_out source n more pad ++ ty_out source t ++ several source rs) ++ us) by (intros us; by rewrite !map_app, <- !app_assoc).
    rewrite E2, E. clear E E2. cbn [source p_name map fst lx app].
    apply cm_word; [apply plain_is_word, N|done|]. apply (calm_inline _ _ I st); [done|]. by apply tail_calm.
  - destruct R as (Nf & Hs & W). destruct (names_plain n more Nf) as [N F]. pose proof (names_tail_inline (ml := false) true more pad _ F (open_inline true hs w Hs W)) as I.
    pose proof (names_split source n more pad (concat (map (holder_out source) hs) ++ [lx w])) as E.
    assert (E2 : map fst (names_out source n more pad) ++ map fst (concat (map (holder_out source) hs)) ++ map fst [p_type source w; lx $" "; lx $"{"; lx [c_nl]] ++ ts = map fst (names_out source n more pad ++ concat (map (holder_out source) hs) ++ [lx w]) ++ [c_sp] :: $"{" :: [c_nl] :: ts).
    { rewrite !map_app, <- !app_assoc. done. }
    rewrite E2, E. clear E E2. cbn [source p_name map fst lx app]. apply cm_word; [apply plain_is_word, N|done|]. apply (calm_inline _ _ I st); [done|]. clear I.
    apply (calm_spaces 1 true st ($"{" :: [c_nl] :: ts)); [done|]. apply (cm_open _ _ _ "{"%char "}"%char); [right; left|]. apply anyhow_nl; [done|]. constructor; [by right|done].
  - destruct R as (Ht & Hn). cbn [map app]. change (fst (lx $"}")) with ($"}"). rewrite map_app, <- app_assoc. apply late_close; [|done]. intros g' st' C'. by apply tail_calm.
  - destruct R as (T & Hw & Ht & Hn). apply ty_calm; [done|done|]. by apply tail_calm.
  - cbn [map app]. by apply calm_comment.
  - by apply anyhow_nl.
Qed.
Lemma srows_calm rows : forall d ts, 1 <= d -> srows_ok d rows -> anyhow ts -> anyhow (map fst (srows_out source d rows) ++ ts).
Proof.
  induction rows as [|r rows IH]; [done|]. intros d ts D [R Rs] A. cbn [srows_ok srows_out] in *.
  destruct r as [n more pad t rs tag note|n more pad hs w|tag note|t tag note|c|]; rewrite map_app, <- app_assoc; apply srow_calm; try done; try lia; apply IH; try done; try lia. apply Rs.
Qed.
Lemma ps_calm ps : ps_ok ps -> ps <> PNil -> forall g st r, closing_st st -> calm true true st r -> calm true g st (map fst (ps_out source ps) ++ r).
Proof.
  intros P Ne g st r C H. destruct ps as [|o t rest]; [done|]. destruct P as (Ho & T & P). cbn [ps_out]. rewrite source_out.
  assert (X : calm true true st (map fst (match rest with PNil => [] | PCons _ _ _ => lx $"," :: lx $" " :: ps_out source rest end) ++ r)).
  { destruct rest as [|o2 t2 r2]; [done|]. apply (calm_lines true); [|done|done]. apply il_comma, il_space. by apply ty_inline. }
  rewrite !map_app, <- !app_assoc. destruct o as [n|]; cbn [map app]; [|by apply ty_calm].
  apply (calm_word g st n (map fst [lx $" "] ++ _)); [by apply param_plain|]. apply (calm_lines true); [apply il_space; constructor|done|]. by apply ty_calm.
Qed.
Definition lowered (st : list (ascii * bool)) : list (ascii * bool) := map (fun x => (fst x, false)) st.
Lemma lowered_twice st : lowered (lowered st) = lowered st.
Proof. unfold lowered. rewrite map_map. done. Qed.
Lemma rows_late n rows ts st : Forall (fun r : plist * option str => fst r <> PNil /\ ps_ok (fst r) /\ match snd r with Some c => c_nl ∉ c | None => True end) rows ->
  closing_st st -> (forall p g, calm p g (lowered st) ts) -> forall p g, calm p g (lowered st) (map fst (concat (map (prow_out source n) rows)) ++ ts).
Proof.
  intros F C H. assert (Cd : closing_st (lowered st)) by (by apply closing_false).
  induction F as [|[ps o] rows (Ne & P & Ho) F IH]; [done|]. cbn [map concat fst snd] in *. rewrite map_app, <- app_assoc. intros p g.
  unfold prow_out at 1. cbn [fst snd]. rewrite !map_app, <- !app_assoc. apply calm_tabs; [done|]. apply ps_calm; [done|done|done|].
  cbn [map fst lx app]. rewrite map_app, <- app_assoc. apply (calm_lines true [lx $","]); [apply il_comma; constructor|done|].
  assert (X : forall g', calm true g' (lowered st) ([c_nl] :: map fst (concat (map (prow_out source n) rows)) ++ ts)).
  { intros g'. apply calm_nl; [done|]. change (map (fun x : ascii * bool => (fst x, false)) (lowered st)) with (lowered (lowered st)). rewrite lowered_twice. apply IH. }
  destruct o as [c|]; cbn [map app].
  - apply (calm_spaces 1); [done|]. cbn [map app]. apply (calm_delim _ _ DLine); [by exists c|by apply comment_no_nl|done|done|]. apply X.
  - apply X.
Qed.
(** A list of parameters, whatever is known of the line. *)
Definition not_first (gr : pgroup) : Prop := match gr with Flat ps => forall t k xs, ps_out source ps = (t, k) :: xs -> ~ exists kw, begins kw t | Rows _ _ | CallRows _ _ _ _ _ _ _ => True | Calls _ _ _ _ _ => False end.
Lemma group_calm gr : group_ok gr -> forall g st ts, closing_st st -> match gr with Rows _ _ | CallRows _ _ _ _ _ _ _ => late ts | _ => calm true g st ts end ->
  g = true \/ not_first gr -> calm true g st (map fst (group_out source gr) ++ ts).
Proof.
  intros P g st ts C L Hg. assert (Cs : forall g', closing_st ((")"%char, g') :: st)) by (intros g'; constructor; [by left|done]).
  destruct gr as [ps|n rows|ps o w fs rs|n rows o w fs rs note].
  3: { destruct Hg as [-> |[]]. apply (calm_lines true); [|done|done]. rewrite <- (app_nil_r (group_out source _)). apply group_inline; [by right|done|constructor]. }
  all: cbn [group_out group_ok not_first] in *; unfold in_parens; cbn [map fst lx app]; apply (cm_open _ _ _ "("%char ")"%char); try left.
  - rewrite map_app, <- app_assoc. assert (X : calm true true ((")"%char, g) :: st) (map fst (ps_out source ps) ++ map fst [lx $")"] ++ ts)).
    { apply (calm_lines true); [by apply ty_inline|apply Cs|]. cbn [map fst lx app]. by apply cm_close. }
    destruct Hg as [-> |Hg]; [exact X|]. destruct (ps_out source ps) as [|[t k] xs] eqn:E.
    + cbn [map fst lx app]. by apply cm_close.
    + cbn [map fst app] in *. eapply calm_first; [exact X|]. by eapply Hg.
  - apply calm_nl; [apply Cs|]. rewrite map_app, <- app_assoc. rewrite map_app, <- app_assoc. apply (rows_late n rows _ ((")"%char, g) :: st)); [done|apply Cs|].
    intros p' g'. assert (X : forall p2 g2, calm p2 g2 (lowered ((")"%char, g) :: st)) (map fst [lx $")"] ++ ts)).
    { intros p2 g2. cbn [map fst lx app lowered]. apply cm_close. apply L. by apply closing_false. }
    destruct n as [|n]; [apply X|]. apply calm_tabs; [apply closing_false, Cs|]. apply X.
  - destruct P as (P1 & P2 & P3 & P4 & P5 & P6). apply calm_nl; [apply Cs|]. rewrite map_app, <- app_assoc. rewrite map_app, <- app_assoc. apply (rows_late n rows _ ((")"%char, g) :: st)); [done|apply Cs|].
    intros p' g'. assert (X : forall p2 g2, calm p2 g2 (lowered ((")"%char, g) :: st)) (map fst [lx $")"] ++ ts)).
    { intros p2 g2. cbn [map fst lx app lowered]. apply cm_close. apply L. by apply closing_false. }
    assert (Cl : closing_st (lowered ((")"%char, g) :: st))) by (apply closing_false, Cs).
    assert (Y : forall p2 g2, calm p2 g2 (lowered ((")"%char, g) :: st)) (map fst (tabs n) ++ map fst [lx $")"] ++ ts)).
    { intros p2 g2. destruct n as [|n']; [apply X|]. apply calm_tabs; [done|]. apply X. }
    rewrite map_app, <- app_assoc. apply calm_tabs; [done|].
    assert (Ec : call_out source o w fs = ps_out source (PCons o (TWord w) PNil) ++ in_parens (ps_out source fs)).
    { unfold call_out. rewrite first_source. cbn [p_type p_name source]. replace (if reads_as_type o (TFunc fs) then lx w else lx w) with (lx w) by (by destruct (reads_as_type o (TFunc fs))).
      cbn [ps_out]. rewrite source_out. destruct o as [m|]; cbn [ty_out source p_type app]; done. }
    rewrite Ec, <- app_assoc, map_app, <- app_assoc. apply ps_calm; [split; [destruct o; exact P2|]; split; [cbn [ty_ok]; destruct P3 as [P3 K3]; split; [done|rewrite K3; by left]|done]|discriminate|done|].
    replace (in_parens (ps_out source fs) ++ several source rs ++ lx $"," :: note_part note ++ lx [c_nl] :: tabs n) with
      ((in_parens (ps_out source fs) ++ several source rs ++ [lx $","]) ++ note_part note ++ lx [c_nl] :: tabs n) by (repeat (rewrite <- ?app_assoc; cbn [app]); done).
    rewrite map_app, <- app_assoc. apply (calm_lines true); [apply parens_inline; [done|]; apply several_inline; [by right|]; apply il_comma; constructor|done|].
    assert (Z : forall g', calm true g' (lowered ((")"%char, g) :: st)) ([c_nl] :: map fst (tabs n) ++ map fst [lx $")"] ++ ts)).
    { intros g2. apply calm_nl; [done|]. change (map (fun x : ascii * bool => (fst x, false)) (lowered ((")"%char, g) :: st))) with (lowered (lowered ((")"%char, g) :: st))). rewrite lowered_twice. apply Y. }
    destruct note as [c|]; cbn [note_part map app].
    + apply (calm_spaces 1); [done|]. cbn [map app]. apply (calm_delim _ _ DLine); [by exists c|by apply comment_no_nl|done|done|]. apply Z.
    + apply Z.
Qed.
Lemma note_late note ts : end_ok note -> anyhow ts -> late (map fst (note_out note) ++ ts).
Proof.
  intros Hn M g st C. destruct note as [c|]; cbn [note_out map app]; [|by apply anyhow_nl]. apply (calm_spaces 1); [done|]. cbn [map app]. by apply calm_comment.
Qed.
Lemma res_calm r : res_fine r -> forall g st ts, closing_st st -> late ts -> g = true \/ match r with RMany gr => not_first gr | _ => True end ->
  calm true g st (map fst (res_src r) ++ ts).
Proof.
  intros R g st ts C L Hg. destruct r as [|t|t rs|gr]; cbn [res_src res_fine map app fst lx] in *; [by apply L|..].
  - apply (calm_spaces 1); [done|]. apply ty_calm; [done|done|by apply L].
  - apply (calm_spaces 1); [done|]. rewrite map_app, <- app_assoc. apply ty_calm; [apply R|done|]. apply (calm_lines true); [|done|by apply L].
    rewrite <- (app_nil_r (several source rs)). apply several_inline; [right; apply R|constructor].
  - apply (calm_spaces 1); [done|]. apply group_calm; [apply R|done| |done]. destruct gr; [by apply L|done|by apply L|done].
Qed.
Lemma sig_calm ps r : group_ok ps -> res_fine r -> after_rows ps r -> forall st ts, closing_st st -> late ts -> calm true true st (map fst (group_out source ps ++ res_src r) ++ ts).
Proof.
  intros P R A st ts C L. rewrite map_app, <- app_assoc. apply group_calm; [done|done| |by left]. destruct ps as [ps|n rows|ps o w fs rs|n rows o w fs rs0 note].
  - apply res_calm; [done|done|done|by left].
  - intros g st' C'. apply res_calm; [done|done|done|]. destruct r as [|t|t rs|[rs|m rs| |]]; right; [done|done|done|exact A|done|by destruct R..].
  - apply res_calm; [done|done|done|by left].
  - intros g st' C'. apply res_calm; [done|done|done|]. destruct r as [|t|t rs|[rs|m rs| |]]; right; [done|done|done|exact A|done|by destruct R..].
Qed.
Lemma irow_calm r ts : irow_ok r -> anyhow ts -> anyhow (map fst (irow_src r) ++ ts).
Proof.
  destruct r as [n ps r note|w more note|c|]; [rewrite irow_line|..]; cbn [irow_ok irow_src].
  - intros (N & P & In & R & A & Hn) M p g st C. cbn [map fst lx app]. apply calm_tab; [done|]. rewrite map_app, <- app_assoc. unfold method_line. cbn [map fst lx app].
    apply cm_word; [apply plain_is_word, N|done|]. apply sig_calm; [done|by apply res_ok_fine|done|done|]. intros g' st' C'. destruct note as [c|]; cbn [note_out map app]; [|by apply anyhow_nl].
    apply (calm_spaces 1); [done|]. cbn [map app]. by apply calm_comment.
  - intros ([W _] & T & _ & Hn) M p g st C. cbn [map fst lx app]. apply calm_tab; [done|]. rewrite map_app, <- app_assoc.
    apply calm_word; [done|]. apply (calm_inline true (map lx more) (tps_line _ (tps_tail _ _ W T)) st); [done|]. destruct note as [c|]; cbn [note_out map app]; [|by apply anyhow_nl].
    apply (calm_spaces 1); [done|]. cbn [map app]. by apply calm_comment.
  - intros N M p g st C. cbn [map fst lx app]. apply calm_tab; [done|]. by apply calm_comment.
  - intros _ M. by apply anyhow_nl.
Qed.
Lemma rows_calm {A} (out : A -> list lexeme) (ok : A -> Prop) rows ts : (forall r ts, ok r -> anyhow ts -> anyhow (map fst (out r) ++ ts)) -> Forall ok rows -> anyhow ts -> anyhow (map fst (concat (map out rows)) ++ ts).
Proof. intros H F Hts. induction F as [|r rows Hr F IH]; [done|]. cbn [map concat]. rewrite map_app, <- app_assoc. by apply H. Qed.
Lemma code_calm (code : list lexeme) ts p g st xs : quiet (map fst code) -> anyhow ts -> closing_st st -> (shielded xs -> p = true) -> ((exists ys w, xs = ys ++ [w] /\ is_word w) -> g = true) -> calm p g st (map fst code ++ ts).
Proof.
  intros Q H C I1 I2. apply (calm_code ts H (map fst code) xs); [done| |done|done]. intros ys t zs E K.
  destruct (Q ys t zs E K) as [(vs & c & -> & A)|(vs & w & o & -> & A)]; rewrite app_assoc; [left; by exists (xs ++ vs), c|right; by exists (xs ++ vs), w, o].
Qed.
Lemma func_calm recv name tps ps r ts : match recv with Some (o, t) => ps_ok (PCons o t PNil) /\ no_func t | None => True end ->
  ident name -> tps_ok tps -> group_ok ps -> res_ok r -> after_rows ps r -> late ts -> calm true true [] (map fst (lx $"func" :: lx $" " :: func_head recv name tps ps r) ++ ts).
Proof.
  intros R [N _] T P Re A L. assert (C0 : closing_st []) by constructor.
  assert (E : map fst (lx $"func" :: lx $" " :: func_head recv name tps ps r) ++ ts = map fst (lx $"func" :: lx $" " :: recv_out source recv) ++ name :: map fst (tps_out tps) ++ map fst (group_out source ps ++ res_src r) ++ ts).
  { unfold func_head. cbn [map fst lx app]. rewrite !map_app. cbn [map fst lx]. rewrite !map_app. repeat (rewrite <- ?app_assoc; cbn [app]). done. }
  rewrite E. clear E. apply (calm_lines false); [|done|].
  - apply il_word; [plain_lit|sf|]. apply il_space. destruct recv as [[o t]|]; [|constructor]. unfold recv_out. apply parens_inline; [apply R|]. apply il_space. constructor.
  - apply calm_word; [done|]. apply (calm_lines false); [rewrite <- (app_nil_r (tps_out tps)); apply tps_inline; [done|constructor]|done|].
    by apply sig_calm; [|apply res_ok_fine|..].
Qed.
Lemma func_type_calm name tps ps r ts : ident name -> tps_ok tps -> group_ok ps -> fres_ok r -> after_rows ps r -> late ts ->
  calm true true [] (map fst (type_head (lx name) tps ++ lx $"func" :: group_out source ps ++ res_src r) ++ ts).
Proof.
  intros N T P Re A L. assert (C0 : closing_st []) by constructor. rewrite map_app, <- app_assoc. apply (calm_lines true); [|done|].
  - rewrite <- (app_nil_r (type_head _ _)). apply head_inline; [done|done|constructor].
  - cbn [map fst lx app]. apply calm_word; [plain_lit|]. by apply sig_calm; [|apply fres_ok_fine|..].
Qed.
Lemma decl_calm d k : decl_ok d -> calm true true [] (map fst (decl_src d ++ blank k)).
Proof.
  intros Ok. rewrite decl_split, !map_app, <- app_assoc.
  assert (C0 : closing_st []) by constructor.
  assert (Cs : forall c g' st, closing_st st -> c = ")"%char \/ c = "}"%char -> closing_st ((c, g') :: st)) by (intros c g' st Hs Hc; by constructor).
  assert (Nw : forall c, c ∈ separators -> forall xs g, (exists ys w, xs ++ [[c]] = ys ++ [w] /\ is_word w) -> g = true).
  { intros c Hc xs g (ys & w & E & W). apply app_inj_tail in E as [_ <-]. exfalso. by apply (sep_no_word c). }
  pose proof (decl_line_inline (ml := false) d) as I.
  assert (Nt : forall note, end_ok note -> late (map fst (note_out note) ++ map fst (blank k))) by (intros note Hn; by apply note_late, anyhow_blank).
  destruct d as [recv name tps ps r body note|name tps rows note|name tps rows note|name tps alias t rs note|name tps ps r note|code|kw code|c|c]; cbn [decl_ok] in Ok;
    try (apply (calm_lines true); [apply I; [by right|exact Ok]|exact C0|]); clear I; cbn [decl_line decl_rest map fst lx app]; rewrite ?map_app, <- ?app_assoc; cbn [map fst lx app].
  - destruct Ok as (R & N & T & P & Re & A & B & Hn). apply (func_calm recv name tps ps r); [done..|]. destruct body as [code|]; cbn [body_out body_ok map fst lx app] in *; [|by apply Nt].
    destruct B as (_ & _ & Q). apply late_space. rewrite map_app, <- app_assoc. intros g st C. apply (cm_open _ _ _ "{"%char "}"%char); [right; left|].
    apply (code_calm code _ _ _ _ []); [done|by apply late_close, Nt|apply Cs; [done|by right]| |done].
    intros [(ys & c & E & _)|(ys & w & o & E & _)]; by destruct ys.
  - destruct Ok as (_ & _ & Ok & Hn). apply (cm_open _ _ _ "{"%char "}"%char); [right; left|].
    apply anyhow_nl; [|apply Cs; [done|by right]]. apply srows_calm; [lia|done|by apply late_close, Nt].
  - destruct Ok as (_ & _ & Ok & Hn). apply (cm_open _ _ _ "{"%char "}"%char); [right; left|].
    apply anyhow_nl; [|apply Cs; [done|by right]]. apply (rows_calm _ irow_ok); [apply irow_calm|done|by apply late_close, Nt].
  - destruct Ok as (_ & _ & _ & _ & _ & Hn). by apply Nt.
  - destruct Ok as (N & T & P & _ & R & A & Hn). pose proof (func_type_calm name tps ps r _ N T P R A (Nt note Hn)) as X. rewrite map_app, <- app_assoc in X. cbn [map fst lx app] in X. exact X.
  - destruct Ok as (_ & _ & Q). apply (cm_open _ _ _ "("%char ")"%char); [left|]. apply calm_nl; [apply Cs; [done|by left]|].
    apply (code_calm code _ _ _ _ [[c_nl]]); [done|by apply closer_blank; left|apply Cs; [done|by left]| |].
    + intros [(ys & c & E & _ & N)|(ys & w & o & E & _)].
      * destruct ys as [|y [|? ys]]; [|done|done]. injection E as <-. exfalso. apply N. left.
      * destruct ys as [|y [|? ys]]; done.
    + apply (Nw c_nl nl_sep []).
  - destruct Ok as [_ (_ & _ & Q)]. apply (code_calm code _ _ _ _ []); [done|apply anyhow_nl, anyhow_blank|done|done|done].
  - apply calm_comment; [done|done|]. apply anyhow_blank.
  - pose proof (closed_opener _ _ (proj1 Ok)) as O. assert (Nb : forall x, x ∈ separators -> c <> [x]) by (intros x Hx ->; apply (sep_no_open x [] Hx); by exists DBlock).
    apply cm_break; [intros [W _]; apply W; by exists DBlock|apply (Nb "("%char)|apply (Nb "{"%char)|done|done|apply anyhow_nl; [apply anyhow_blank|constructor]]; eapply bool_decide_unpack; vm_compute; exact Logic.I.
Qed.
