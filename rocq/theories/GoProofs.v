(** The grammar of SpecGo.v: layout of the tokens. *)
From Verif Require Import SpecGo Opaque LexSpecProofs P_Lex P_Spell HeaderProofs LocalProofs.

(** ** Tokens in one line with matching brackets *)
Definition sep_first (ts : list lexeme) : Prop :=
  match ts with [] => True | (t, _) :: _ => exists c, c ∈ separators /\ t = [c] end.
Definition bracket_pairs : list (ascii * ascii) := [("("%char, ")"%char); ("["%char, "]"%char); ("{"%char, "}"%char)].
(** No brace at top level unless [c]; one line unless [l]. *)
Inductive lines (l : bool) : bool -> list lexeme -> Prop :=
| il_nil c : lines l c []
| il_sep c x ts : x ∈ [c_sp; ","%char; c_tab] -> lines l c ts -> lines l c (lx [x] :: ts)
| il_word c w ts : plain_word w -> sep_first ts -> lines l c ts -> lines l c (lx w :: ts)
| il_pair c o e xs ts : (o, e) ∈ bracket_pairs -> (o = "{"%char -> c = true) -> lines l true xs -> lines l c ts ->
    lines l c (lx [o] :: xs ++ lx [e] :: ts)
| il_break c ts : l = true -> lines l c ts -> lines l c (lx [c_nl] :: ts)
| il_note c t ts : l = true -> c_nl ∉ t -> lines l c ts -> lines l c (comment t :: lx [c_nl] :: ts).
Arguments il_nil {l}. Arguments il_sep {l}. Arguments il_word {l}. Arguments il_pair {l}. Arguments il_break {l}. Arguments il_note {l}.
Section Lines.
Context {ml : bool}.
Local Notation inline := (lines ml).

Lemma sep_first_tok c ts : c ∈ separators -> sep_first (lx [c] :: ts). Proof. intros H. by exists c. Qed.
Lemma sep_first_app xs ys : sep_first xs -> sep_first ys -> sep_first (xs ++ ys).
Proof. by destruct xs. Qed.
Lemma inline_app c xs ys : inline c xs -> inline c ys -> sep_first ys -> inline c (xs ++ ys).
Proof.
  intros H. induction H as [c|c x ts Hx H IH|c w ts Hw Hs H IH|c o e xs ts Hp Hc Hx IHx H IH|c ts Hl H IH|c t ts Hl Ht H IH]; intros Hy Sy; cbn [app]; [done|..].
  - apply il_sep; auto.
  - apply il_word; [done|by apply sep_first_app|auto].
  - rewrite <- app_assoc. cbn [app]. apply il_pair; auto.
  - apply il_break; auto.
  - apply il_note; auto.
Qed.
Lemma inline_weak c xs : inline c xs -> inline true xs.
Proof. induction 1; [apply il_nil|by apply il_sep|by apply il_word|by apply il_pair|by apply il_break|by apply il_note]. Qed.
Lemma in_seps (l : list ascii) : forallb (fun c => bool_decide (c ∈ separators)) l = true -> forall c, c ∈ l -> c ∈ separators.
Proof. rewrite forallb_forall. intros H c Hc. apply elem_of_list_In in Hc. by apply H, bool_decide_eq_true in Hc. Qed.
Lemma inline_seps x : x ∈ [c_sp; ","%char; c_tab] -> x ∈ separators.
Proof. apply in_seps. reflexivity. Qed.
Lemma pair_seps o e : (o, e) ∈ bracket_pairs -> o ∈ separators /\ e ∈ separators.
Proof.
  intros H. split; revert H; [|].
  - intros H. apply (in_seps (map fst bracket_pairs)); [reflexivity|]. apply elem_of_list_fmap. by exists (o, e).
  - intros H. apply (in_seps (map snd bracket_pairs)); [reflexivity|]. apply elem_of_list_fmap. by exists (o, e).
Qed.

(** Spelling *)
Lemma absent_slash x w : "/"%char ∉ w -> absent ["/"%char; x] w.
Proof. intros N b1 b2 ->. apply N. apply elem_of_app. right. cbn. by left. Qed.
Lemma plain_go_word w : plain_word w -> go_word w.
Proof.
  intros [N H]. split; [done|]. split; [intros c Hc; destruct (H c Hc) as (? & ? & ? & _); by auto|].
  assert ("/"%char ∉ w) by (intros Hc; by destruct (H _ Hc) as (_ & _ & _ & ?)). split; by apply absent_slash.
Qed.
Lemma sep_first_after w ts : sep_first ts -> after_word w ts.
Proof. destruct ts as [|[t k] ts]; [done|]. intros H. by left. Qed.
Lemma inline_spelled c xs ts : inline c xs -> sep_first ts -> spelled ts -> spelled (xs ++ ts).
Proof.
  intros H. revert ts. induction H as [c|c x xs Hx H IH|c w xs Hw Hs H IH|c o e xs ys Hp Hc Hx IHx H IH|c xs Hl H IH|c t xs Hl Ht H IH]; intros ts St Sp; cbn [app]; [done|..].
  - apply sp_sep; [by apply inline_seps|auto].
  - apply sp_word; [by apply plain_go_word|apply sep_first_after; by apply sep_first_app|auto].
  - destruct (pair_seps o e Hp). apply sp_sep; [done|]. rewrite <- app_assoc. cbn [app]. apply IHx; [by apply sep_first_tok|]. apply sp_sep; auto.
  - apply sp_sep; [apply (in_seps [c_nl]); [reflexivity|left]|auto].
  - apply sp_line; [done|]. apply sp_sep; [apply (in_seps [c_nl]); [reflexivity|left]|auto].
Qed.

(** ** Matching brackets *)
Lemma matched_app xs ys : matched xs -> matched ys -> matched (xs ++ ys).
Proof.
  intros H Hy. induction H as [|t ts N H IH|o c ts ts' P H IH H' IH']; cbn [app]; [done|by apply ma_other|].
  rewrite <- app_assoc. cbn [app]. by apply ma_pair.
Qed.
Lemma sep_not_bracket x : x ∈ [c_sp; ","%char; c_tab; c_nl] -> [x] ∉ [$"("; $")"; $"["; $"]"; $"{"; $"}"].
Proof. revert x. apply Forall_forall. eapply bool_decide_unpack. vm_compute. exact Logic.I. Qed.
Lemma plain_not_bracket w : plain_word w -> w ∉ [$"("; $")"; $"["; $"]"; $"{"; $"}"].
Proof.
  intros [_ H] Hw. assert (forall w', w' ∈ [$"("; $")"; $"["; $"]"; $"{"; $"}"] -> exists c, w' = [c] /\ c ∈ separators) as X.
  { assert (F : Forall (fun w' => exists c, w' = [c] /\ c ∈ separators) [$"("; $")"; $"["; $"]"; $"{"; $"}"]); [|by rewrite Forall_forall in F].
    repeat (constructor; [eexists; split; [reflexivity|eapply bool_decide_unpack; vm_compute; exact Logic.I]|]). constructor. }
  destruct (X w Hw) as (c & -> & Hc). by destruct (H c ltac:(left)).
Qed.
Lemma pair_texts o e : (o, e) ∈ bracket_pairs -> ([o], [e]) ∈ [($"(", $")"); ($"[", $"]"); ($"{", $"}")].
Proof. intros H. change (([o], [e]) ∈ map (fun p : ascii * ascii => ([fst p], [snd p])) bracket_pairs). apply elem_of_list_fmap. by exists (o, e). Qed.
Lemma inline_matched c xs : inline c xs -> matched (map fst xs).
Proof.
  induction 1 as [c|c x ts Hx H IH|c w ts Hw Hs H IH|c o e xs ts Hp Hc Hx IHx H IH|c ts Hl H IH|c t ts Hl Ht H IH]; cbn [map fst lx]; [constructor|..].
  - apply ma_other; [|done]. apply sep_not_bracket. revert Hx. rewrite !elem_of_cons. tauto.
  - apply ma_other; [by apply plain_not_bracket|done].
  - rewrite map_app. cbn [map fst lx]. apply ma_pair; [by apply pair_texts|done|done].
  - apply ma_other; [|done]. apply sep_not_bracket. right. right. right. left.
  - cbn [comment fst]. apply ma_other; [unfold app; cbn; rewrite !elem_of_cons, elem_of_nil; intuition discriminate|]. apply ma_other; [|done]. apply sep_not_bracket. right. right. right. left.
Qed.
(** ... of the source and of the kinds *)
Inductive kmatched : list kind -> Prop :=
| km_nil : kmatched []
| km_other k ks : k ∉ [KParenL; KParenR; KSquareL; KSquareR; KCurlyL; KCurlyR] -> kmatched ks -> kmatched (k :: ks)
| km_pair o c ks ks' : (o, c) ∈ [(KParenL, KParenR); (KSquareL, KSquareR); (KCurlyL, KCurlyR)] -> kmatched ks -> kmatched ks' -> kmatched (o :: ks ++ c :: ks').
Definition bracket_kinds : list kind := [KParenL; KParenR; KSquareL; KSquareR; KCurlyL; KCurlyR].
Definition bracket_texts : list str := [$"("; $")"; $"["; $"]"; $"{"; $"}"].
(** A token has the kind of a bracket exactly if it is one. *)
Definition faithful (l : lexeme) : Prop := (fst l ∈ bracket_texts -> snd l = kind_new (fst l)) /\ (snd l ∈ bracket_kinds -> fst l ∈ bracket_texts).
Lemma kind_new_bracket w : kind_new w ∈ bracket_kinds -> w ∈ bracket_texts.
Proof.
  intros H. assert (E : w = k_text (kind_new w)).
  { apply kind_new_fixed; [done|]. revert H. assert (F : Forall (fun k => k ∈ map snd reserved) bracket_kinds) by (eapply bool_decide_unpack; vm_compute; exact Logic.I). rewrite Forall_forall in F. apply F. }
  rewrite E. change bracket_texts with (map k_text bracket_kinds). apply elem_of_list_fmap. by eexists.
Qed.
Lemma lx_faithful w : faithful (lx w).
Proof. split; [done|]. apply kind_new_bracket. Qed.
Lemma spelled_faithful ts : spelled ts -> Forall faithful ts.
Proof.
  assert (Op : forall d t, opener d `prefix_of` t -> t ∉ bracket_texts).
  { intros d t [q ->] H. revert H. unfold bracket_texts. destruct d; cbn [opener app]; rewrite !elem_of_cons, elem_of_nil; intuition discriminate. }
  assert (Kd : forall d, dkind d ∉ bracket_kinds) by (intros []; eapply bool_decide_unpack; vm_compute; exact Logic.I).
  induction 1 as [|c ts Hc _ IH|w ts Hw _ _ IH|d t ts Nd [W _] _ IH|b k ts Nb _ IH]; constructor; try done; try apply lx_faithful.
  - split; intros H; exfalso; [by apply (Op d t (closed_opener _ _ W))|by apply (Kd d)].
  - split; intros H; exfalso; [|by apply (Kd DLine)]. apply (Op DLine ($"//" ++ b)); [by exists b|done].
Qed.
Lemma matched_kinds ts : matched (map fst ts) -> Forall faithful ts -> kmatched (map snd ts).
Proof.
  remember (map fst ts) as ws eqn:E. intros H. revert ts E. induction H as [|t ws N H IH|o c ws ws' P H IH H' IH']; intros ts E F.
  - destruct ts; [constructor|done].
  - destruct ts as [|[t' k] ts]; [done|]. injection E as -> E. apply Forall_cons in F as [[F1 F2] F]. apply km_other; [|by apply IH]. intros Hk. by apply N, F2.
  - destruct ts as [|[t' k] ts]; [done|]. injection E as -> E. apply Forall_cons in F as [[F1 _] F]. cbn [fst snd] in F1.
    symmetry in E. apply map_eq_app in E as (xs & [|[t2 k2] ys] & -> & <- & E2); [done|]. injection E2 as -> <-.
    apply Forall_app in F as [Fx Fy]. apply Forall_cons in Fy as [[F3 _] Fy]. cbn [fst snd] in F3. cbn [map snd]. rewrite map_app. cbn [map snd].
    assert (X : t' ∈ bracket_texts /\ c ∈ bracket_texts /\ (kind_new t', kind_new c) ∈ [(KParenL, KParenR); (KSquareL, KSquareR); (KCurlyL, KCurlyR)]).
    { revert P. clear. intros P. assert (F : Forall (fun p : str * str => fst p ∈ bracket_texts /\ snd p ∈ bracket_texts /\ (kind_new (fst p), kind_new (snd p)) ∈ [(KParenL, KParenR); (KSquareL, KSquareR); (KCurlyL, KCurlyR)]) [($"(", $")"); ($"[", $"]"); ($"{", $"}")]) by (eapply bool_decide_unpack; vm_compute; exact Logic.I).
      rewrite Forall_forall in F. apply (F (t', c) P). }
    destruct X as (X1 & X2 & X3). rewrite (F1 X1), (F3 X2). apply km_pair; [done|by apply IH|by apply IH'].
Qed.
Lemma kmatched_nested l r ks : (l, r) ∈ [(KParenL, KParenR); (KSquareL, KSquareR); (KCurlyL, KCurlyR)] -> kmatched ks -> nested l r ks.
Proof.
  intros P. assert (Nap : forall xs ys, nested l r xs -> nested l r ys -> nested l r (xs ++ ys)).
  { intros xs ys H Hy. induction H as [|k zs N1 N2 H IH|zs zs' H IH H' IH']; cbn [app]; [done|by apply ne_other|]. rewrite <- app_assoc. cbn [app]. by apply ne_pair. }
  assert (Lr : l ∈ bracket_kinds /\ r ∈ bracket_kinds).
  { assert (F : Forall (fun p : kind * kind => fst p ∈ bracket_kinds /\ snd p ∈ bracket_kinds) [(KParenL, KParenR); (KSquareL, KSquareR); (KCurlyL, KCurlyR)]) by (eapply bool_decide_unpack; vm_compute; exact Logic.I).
    rewrite Forall_forall in F. apply (F _ P). }
  induction 1 as [|k ks N H IH|o c ks ks' Q H IH H' IH']; [constructor|..].
  - apply ne_other; [by intros ->; apply N, Lr|by intros ->; apply N, Lr|done].
  - assert (X : (o = l /\ c = r) \/ (o <> l /\ o <> r /\ c <> l /\ c <> r)).
    { assert (F : Forall (fun p : kind * kind => Forall (fun q : kind * kind => (fst p = fst q /\ snd p = snd q) \/ (fst p <> fst q /\ fst p <> snd q /\ snd p <> fst q /\ snd p <> snd q)) [(KParenL, KParenR); (KSquareL, KSquareR); (KCurlyL, KCurlyR)]) [(KParenL, KParenR); (KSquareL, KSquareR); (KCurlyL, KCurlyR)]) by (eapply bool_decide_unpack; vm_compute; exact Logic.I).
      rewrite Forall_forall in F. specialize (F _ Q). rewrite Forall_forall in F. apply (F _ P). }
    destruct X as [[-> ->]|(? & ? & ? & ?)]; [by apply ne_pair|]. apply ne_other; [done..|]. apply Nap; [done|]. by apply ne_other.
Qed.
Lemma inline_faithful c xs : inline c xs -> Forall faithful xs.
Proof.
  induction 1 as [c|c x ts Hx H IH|c w ts Hw Hs H IH|c o e xs ts Hp Hc Hx IHx H IH|c ts Hl H IH|c t ts Hl Ht H IH]; [constructor|..]; try (constructor; [apply lx_faithful|done]).
  - constructor; [apply lx_faithful|]. apply Forall_app. split; [done|]. constructor; [apply lx_faithful|done].
  - constructor; [|constructor; [apply lx_faithful|done]]. split; [intros X; exfalso; revert X; unfold bracket_texts; cbn; rewrite !elem_of_cons, elem_of_nil; intuition discriminate|].
    intros X. exfalso. revert X. cbn [comment snd]. eapply bool_decide_unpack. vm_compute. exact Logic.I.
Qed.
Lemma inline_kmatched c xs : inline c xs -> kmatched (map snd xs).
Proof. intros H. apply matched_kinds; [by eapply inline_matched|by eapply inline_faithful]. Qed.
Lemma nested_to_squares ks : nested KSquareL KSquareR ks -> squares ks.
Proof. induction 1; [constructor|by apply sq_other|by apply sq_pair]. Qed.
Lemma kmatched_squares ks : kmatched ks -> squares ks.
Proof. intros H. apply nested_to_squares. apply kmatched_nested; [eapply bool_decide_unpack; vm_compute; exact Logic.I|done]. Qed.
Lemma kmatched_curly ks : kmatched ks -> nested KCurlyL KCurlyR ks.
Proof. intros H. apply kmatched_nested; [eapply bool_decide_unpack; vm_compute; exact Logic.I|done]. Qed.
End Lines.

(** ** Open brackets *)
Definition open_step (st : list ascii) (t : str) : list ascii :=
  if bool_decide (t = $"(") then ")"%char :: st
  else if bool_decide (t = $"{") then "}"%char :: st
  else match st with c :: st' => if bool_decide (t = [c]) then st' else st | [] => [] end.
Lemma open_cons st t ts : open_brackets st (t :: ts) = open_brackets (open_step st t) ts. Proof. done. Qed.
Definition closing (st : list ascii) : Prop := Forall (fun c => c = ")"%char \/ c = "}"%char) st.
Lemma open_skip st t : t ∉ [$"("; $")"; $"{"; $"}"] -> closing st -> open_step st t = st.
Proof.
  rewrite !elem_of_cons, elem_of_nil. intros N C. unfold open_step. rewrite !bool_decide_eq_false_2 by tauto.
  destruct st as [|c st]; [done|]. apply Forall_cons in C as [C _]. rewrite bool_decide_eq_false_2; [done|]. intros ->. destruct C as [-> | ->]; tauto.
Qed.
Lemma open_matched ts : matched ts -> forall st r, closing st -> open_brackets st (ts ++ r) = open_brackets st r.
Proof.
  induction 1 as [|t ts N H IH|o c ts ts' P H IH H' IH']; intros st r C; cbn [app]; [done|..].
  - rewrite open_cons, open_skip; [by apply IH|revert N; rewrite !elem_of_cons; tauto|done].
  - rewrite <- app_assoc. cbn [app]. rewrite open_cons.
    assert (Q : (open_step st o = st /\ open_step st c = st) \/ exists x, (x = ")"%char \/ x = "}"%char) /\ open_step st o = x :: st /\ c = [x]).
    { rewrite !elem_of_cons, elem_of_nil in P. destruct P as [E|[E|[E|[]]]]; injection E as -> ->.
      - right. exists ")"%char. by auto.
      - left. split; (apply open_skip; [eapply bool_decide_unpack; vm_compute; exact Logic.I|done]).
      - right. exists "}"%char. by auto. }
    destruct Q as [[E1 E2]|(x & Hx & E1 & ->)]; rewrite E1.
    + rewrite IH, open_cons, E2 by done. by apply IH'.
    + rewrite IH by (by constructor). rewrite open_cons.
      replace (open_step (x :: st) [x]) with st; [by apply IH'|]. unfold open_step. rewrite !bool_decide_eq_false_2 by (destruct Hx as [-> | ->]; discriminate). by rewrite bool_decide_eq_true_2.
Qed.

(** ** Parameters without a name *)
(** If names are written like types, these are written like others. *)
Lemma unnamed_plain p t : (forall w, p_name p w = p_type p w) -> unnamed p t = ty_out p t.
Proof.
  intros H. induction t as [w|w args|t IH|n t IH|m k _ t IH|c t IH|w|s t IH|ps|ps r IH]; cbn [ty_out unnamed]; rewrite ?H; try congruence.
  - destruct (bool_decide (m = $"map")); congruence.
  - destruct (bool_decide (c = $"chan")); congruence.
Qed.
Lemma plain_out p o t : (forall w, p_name p w = p_type p w) -> (if reads_as_type o t then ty_out p t else unnamed p t) = ty_out p t.
Proof. intros H. destruct (reads_as_type o t); [done|by apply unnamed_plain]. Qed.
Lemma source_out o t : (if reads_as_type o t then ty_out source t else unnamed source t) = ty_out source t.
Proof. by apply plain_out. Qed.
Lemma first_plain p fs : (forall w, p_name p w = p_type p w) -> first_out p fs = ps_out p fs.
Proof. intros H. destruct fs as [|o t rest]; [done|]. cbn [first_out ps_out]. rewrite plain_out by done. destruct o; [by rewrite H|done]. Qed.
Lemma first_source fs : first_out source fs = ps_out source fs.
Proof. by apply first_plain. Qed.
