(** The grammar of SpecGo.v: type declarations. *)
From Verif Require Import SpecGo P_Get P_Scope GoProofs GoLayout GoKinds GoFunc.

(** ** Fields *)
Lemma rw_lit n w rest rest' : bool_decide (kind_new w ∉ [KRaw; KFunc; KNewLine]) = true -> row n rest rest' -> row n (lx w :: rest) (lx w :: rest').
Proof. intros N H. apply rw_other; [by apply bool_decide_eq_true in N|done]. Qed.
Lemma rw_word w rest rest' : index_word w -> row 0 rest rest' -> row 0 (lx w :: rest) (now KParamType w :: rest').
Proof.
  intros [_ K] H. rewrite !elem_of_cons, elem_of_nil in K. destruct K as [K|[K|[K|[]]]].
  - rewrite lx_raw, now_raw by done. by apply rw_type.
  - rewrite now_other by (by rewrite K). unfold lx. rewrite K. apply rw_other; [knot|done].
  - rewrite now_other by (by rewrite K). unfold lx. rewrite K. apply rw_other; [knot|done].
Qed.
Lemma type_index w : type_word w -> index_word w.
Proof. intros [W K]. split; [done|]. rewrite !elem_of_cons, elem_of_nil in *. tauto. Qed.
Lemma ident_index w : ident w -> index_word w.
Proof. intros [W K]. split; [done|]. rewrite K. knot. Qed.
Lemma rw_symbol n w rest rest' : symbol w -> row n rest rest' -> row n (lx w :: rest) (lx w :: rest').
Proof. intros [_ K] H. unfold lx. rewrite K. apply rw_other; [knot|done]. Qed.
(** In structs there is no difference between what stands in brackets and what does not. *)
Lemma inside_field t : no_func t -> ty_out (inside field_pen) t = ty_out field_pen t.
Proof.
  induction t as [w|w args|t IH|n t IH|m k _ t IH|c t IH|w|s t IH|ps|ps r IH]; cbn [no_func ty_out p_type p_index p_name inside]; change (inside (inside field_pen)) with (inside field_pen); try done.
  - intros N. by rewrite IH.
  - intros N. by rewrite IH.
  - intros [N1 N2]. by rewrite IH.
  - intros N. by rewrite IH.
  - intros N. by rewrite IH.
Qed.
Lemma ty_row_all : (forall t, ty_ok t -> forall rest rest', row 0 rest rest' -> row 0 (ty_out source t ++ rest) (ty_out field_pen t ++ rest')) /\
  (forall ps, args_ok ps -> ps_no_func ps -> forall rest rest', row 0 rest rest' -> row 0 (ps_out source ps ++ rest) (ps_out (inside field_pen) ps ++ rest')).
Proof.
  assert (E : field_pen = settled KParamName KParamType true) by done.
  apply ty_plist_ind; cbn [ty_ok args_ok ps_no_func ty_out ps_out]; change (inside source) with source; cbn [source field_pen settled p_type p_index p_name app].
  - intros w W rest rest' H. apply rw_word; [by apply type_index|done].
  - intros w args IH (W & _ & A & N) rest rest' H. apply rw_word; [by apply ident_index|]. apply rw_lit; [reflexivity|]. rewrite <- !app_assoc. apply IH; [done|done|]. by apply rw_lit.
  - intros t IH Ok rest rest' H. apply rw_lit; [reflexivity|]. apply rw_lit; [reflexivity|]. by apply IH.
  - intros n t IH [A Ok] rest rest' H. apply rw_lit; [reflexivity|]. apply rw_word; [done|]. apply rw_lit; [reflexivity|]. by apply IH.
  - intros m k IHk t IH (M & K & N & Ok) rest rest' H. rewrite (inside_field k N). rewrite <- !app_assoc. cbn [app].
    assert (X : row 0 (lx $"[" :: ty_out source k ++ lx $"]" :: ty_out source t ++ rest) (lx $"[" :: ty_out field_pen k ++ lx $"]" :: ty_out field_pen t ++ rest')).
    { apply rw_lit; [reflexivity|]. apply IHk; [done|]. apply rw_lit; [reflexivity|]. by apply IH. }
    destruct M as [-> |M]; [rewrite now_lit by reflexivity; by apply rw_lit|]. apply rw_word; [by apply ident_index|done].
  - intros c t IH (M & Ok) rest rest' H.
    assert (X : row 0 (lx $" " :: ty_out source t ++ rest) (lx $" " :: ty_out field_pen t ++ rest')). { apply rw_lit; [reflexivity|]. by apply IH. }
    destruct M as [-> |M]; [rewrite now_lit by reflexivity; by apply rw_lit|]. apply rw_word; [by apply ident_index|done].
  - intros w W rest rest' H. assert (X : row 0 (lx $"{" :: lx $"}" :: rest) (lx $"{" :: lx $"}" :: rest')). { apply rw_lit; [reflexivity|]. by apply rw_lit. }
    destruct W as [W|W]; [|apply rw_word; [by apply ident_index|done]]. rewrite now_empty by done. rewrite !elem_of_cons, elem_of_nil in W. destruct W as [-> |[-> |[]]]; by apply rw_lit.
  - intros s t IH (W & Ok & _) rest rest' H. rewrite now_symbol by done. apply rw_symbol; [done|]. by apply IH.
  - intros ps _ P rest rest' H. rewrite <- !app_assoc. cbn [app]. lxs. apply rw_func; [by apply (params_ok true)|done].
  - intros ps _ r IHr [P R] rest rest' H. rewrite <- !app_assoc. cbn [app]. rewrite lx_func, lx_po, lx_pc. apply rw_func; [by apply (params_ok true)|].
    apply rw_lit; [reflexivity|]. by apply IHr.
  - intros _ _ rest rest' H. exact H.
  - intros o t IHt r IHr (-> & T & A) [N1 N2] rest rest' H. rewrite source_out, plain_out, inside_field by done. cbn [app]. rewrite <- !app_assoc. apply IHt; [done|]. destruct r as [|o2 t2 r2]; [done|]. cbn [app].
    apply rw_lit; [reflexivity|]. apply rw_lit; [reflexivity|]. by apply IHr.
Qed.
Lemma ty_row t : ty_ok t -> forall rest rest', row 0 rest rest' -> row 0 (ty_out source t ++ rest) (ty_out field_pen t ++ rest').
Proof. apply ty_row_all. Qed.
Lemma spaces_row n m rest rest' : row n rest rest' -> row n (spaces m ++ rest) (spaces m ++ rest').
Proof. intros H. induction m as [|m IH]; [done|]. cbn [spaces repeat app]. by apply rw_lit; [reflexivity|]. Qed.
Lemma names_row n more rest rest' : ident n -> Forall ident more -> row 0 rest rest' ->
  row (S (length more)) (lx n :: concat (map (fun m => [lx $","; lx $" "; lx m]) more) ++ rest) (now KParamName n :: concat (map (fun m => [lx $","; lx $" "; now KParamName m]) more) ++ rest').
Proof.
  intros [_ K] F H. rewrite lx_raw, now_raw by done. apply rw_name. induction F as [|m more [_ M] F IH]; [done|]. cbn [map concat app length].
  rewrite (lx_raw m M), (now_raw _ m M). apply rw_lit; [reflexivity|]. apply rw_lit; [reflexivity|]. by apply rw_name.
Qed.
Lemma tail_row tag note : row 0 (tail_out tag note) (tail_out tag note).
Proof.
  unfold tail_out. assert (X : row 0 (match note with Some (n, c) => spaces (S n) ++ [comment c] | None => [] end) (match note with Some (n, c) => spaces (S n) ++ [comment c] | None => [] end)).
  { destruct note as [[n c]|]; [|constructor]. apply spaces_row. apply rw_other; [knot|constructor]. }
  destruct tag as [[n t]|]; [|done]. rewrite <- app_assoc. apply spaces_row. cbn [app]. apply rw_other; [knot|done].
Qed.
(** The number of names *)
Definition plain_kinds : list kind := [KComment; KTab; KRaw; KSpace; KComma].
Lemma name_part_app ks ks2 : Forall (fun k => k ∈ plain_kinds) ks -> name_part (ks ++ ks2) = ks ++ name_part ks2.
Proof. induction 1 as [|k ks H F IH]; [done|]. cbn [app name_part]. rewrite bool_decide_eq_true_2 by done. by rewrite IH. Qed.
Lemma commas_app ks ks2 : commas (ks ++ ks2) = commas ks + commas ks2.
Proof. unfold commas. by rewrite filter_app, app_length. Qed.
Lemma commas_none ks : KComma ∉ ks -> commas ks = 0.
Proof. unfold commas. induction ks as [|k ks IH]; [done|]. rewrite not_elem_of_cons. intros [N H]. rewrite filter_cons_False by congruence. by apply IH. Qed.
Definition stops (ks : list kind) : Prop := KComma ∉ name_part ks.
Lemma stop_other k ks : k ∉ plain_kinds -> stops (k :: ks).
Proof. intros N. unfold stops. cbn [name_part]. rewrite bool_decide_eq_false_2 by done. intros H. by apply elem_of_nil in H. Qed.
Lemma stop_plain k ks : k ∈ plain_kinds -> k <> KComma -> stops ks -> stops (k :: ks).
Proof. intros N M H. unfold stops. cbn [name_part]. rewrite bool_decide_eq_true_2 by done. rewrite not_elem_of_cons. split; [congruence|done]. Qed.
Lemma stop_word w ks : index_word w -> stops ks -> stops (kind_new w :: ks).
Proof.
  intros [_ K] H. rewrite !elem_of_cons, elem_of_nil in K. destruct K as [K|[K|[K|[]]]]; rewrite K; [apply stop_plain; [knot|knot|done]|apply stop_other; knot|apply stop_other; knot].
Qed.
Lemma stop_ty t rest : ty_ok t -> stops (map snd rest) -> stops (map snd (ty_out source t ++ rest)).
Proof.
  intros Ok H. induction t as [w|w a|t IH|n t IH|m k _ t IH|c t IH|w|s t IH|ps|ps r IH]; cbn [ty_ok ty_out source p_type p_index app map] in *.
  - apply (stop_word w); [by apply type_index|done].
  - apply (stop_word w); [by apply ident_index, Ok|]. apply (stop_other KSquareL); knot.
  - apply (stop_other KSquareL); knot.
  - apply (stop_other KSquareL); knot.
  - destruct Ok as [[-> |M] _]; [apply (stop_other KMap); knot|]. apply (stop_word m); [by apply ident_index|]. apply (stop_other KSquareL); knot.
  - destruct Ok as [[-> |M] Ok]; [apply (stop_other KChannel); knot|]. apply (stop_word c); [by apply ident_index|]. apply (stop_plain KSpace); [knot|knot|]. by apply IH.
  - destruct Ok as [W|W]; [|apply (stop_word w); [by apply ident_index|]; apply (stop_other KCurlyL); knot]. rewrite !elem_of_cons, elem_of_nil in W. destruct W as [-> |[-> |[]]]; [apply (stop_other KInterface)|apply (stop_other KStruct)]; knot.
  - destruct Ok as ([_ K] & _). cbn [lx snd]. rewrite K. apply (stop_other KSymbol); knot.
  - apply (stop_other KFunc); knot.
  - apply (stop_other KFunc); knot.
Qed.
Lemma stop_spaces n rest : stops (map snd rest) -> stops (map snd (spaces n ++ rest)).
Proof. intros H. induction n as [|n IH]; [done|]. cbn [spaces repeat app map]. apply stop_plain; [knot|knot|done]. Qed.
Lemma stop_tail tag note : stops (map snd (tail_out tag note)).
Proof.
  unfold tail_out. assert (X : stops (map snd (match note with Some (n, c) => spaces (S n) ++ [comment c] | None => [] end))).
  { destruct note as [[n c]|]; [|intros H; by apply elem_of_nil in H]. apply stop_spaces. cbn [map]. apply stop_plain; [knot|knot|]. intros H; by apply elem_of_nil in H. }
  destruct tag as [[n t]|]; [|done]. rewrite <- app_assoc. apply stop_spaces. cbn [app map]. apply stop_other; knot.
Qed.
Lemma field_names n more pad rest : ident n -> Forall ident more -> stops (map snd rest) ->
  names (KTab :: map snd (lx n :: concat (map (fun m => [lx $","; lx $" "; lx m]) more) ++ spaces (S pad) ++ rest)) = S (length more).
Proof.
  intros [_ K] F St. cbn [map]. rewrite !map_app. set (cs := map snd (concat (map (fun m => [lx $","; lx $" "; lx m]) more))).
  assert (Kc : Forall (fun k => k ∈ plain_kinds) cs /\ commas cs = length more).
  { unfold cs. clear cs. induction F as [|m more [_ M] F [IH1 IH2]]; [split; [constructor|done]|]. cbn [map concat app lx snd]. rewrite M. split.
    - constructor; [knot|]. constructor; [knot|]. constructor; [knot|done].
    - change (commas ([kind_new $","; kind_new $" "; KRaw] ++ map snd (concat (map (fun m => [lx $","; lx $" "; lx m]) more))) = S (length more)). rewrite commas_app, IH2. done. }
  destruct Kc as [Kc Ec]. cbn [lx snd]. rewrite K. set (ss := map snd (spaces (S pad))).
  assert (Ks : Forall (fun k => k ∈ plain_kinds) ss /\ commas ss = 0).
  { unfold ss, spaces. clear. induction (S pad) as [|p [IH1 IH2]]; [split; [constructor|done]|]. cbn [repeat map lx snd]. split; [constructor; [knot|done]|].
    change (commas ([KSpace] ++ map snd (repeat (lx $" ") p)) = 0). by rewrite commas_app, IH2. }
  destruct Ks as [Ks Es]. unfold names.
  assert (E : name_part (KTab :: KRaw :: cs ++ ss ++ map snd rest) = [KTab; KRaw] ++ cs ++ ss ++ name_part (map snd rest)).
  { change (KTab :: KRaw :: cs ++ ss ++ map snd rest) with ([KTab; KRaw] ++ cs ++ ss ++ map snd rest). rewrite name_part_app by (constructor; [knot|constructor; [knot|constructor]]).
    by rewrite !name_part_app. }
  rewrite E. rewrite !commas_app, Ec, Es, (commas_none (name_part (map snd rest))) by done. change (commas [KTab; KRaw]) with 0.
  rewrite !Nat.add_0_r, Nat.add_0_l. destruct more as [|m more]; [|done]. cbn [length]. 
  assert (Gp : gap ([KTab; KRaw] ++ cs ++ ss ++ name_part (map snd rest)) = bool_decide (KSpace ∈ cs ++ ss ++ name_part (map snd rest))) by done.
  rewrite Gp, bool_decide_eq_true_2; [done|]. apply elem_of_app. right. apply elem_of_app. left. unfold ss. cbn [spaces repeat map]. left.
Qed.
Lemma fields_app xs xs' ts ts' : fields xs xs' -> fields ts ts' -> fields (xs ++ ts) (xs' ++ ts').
Proof.
  intros H Ht. induction H as [|t k zs zs' K H IH|t k r r' u zs zs' K R H IH]; cbn [app]; [done|by apply fl_skip|].
  rewrite <- !app_assoc. cbn [app]. by apply fl_row.
Qed.
Lemma names_tab ks : names (KTab :: ks) = names ks.
Proof. unfold names. cbn [name_part]. rewrite bool_decide_eq_true_2 by knot. unfold commas. rewrite filter_cons_False by discriminate. cbn [gap]. done. Qed.
Lemma tabs_row d n rest rest' : row n rest rest' -> row n (tabs d ++ rest) (tabs d ++ rest').
Proof. intros H. induction d as [|d IH]; [done|]. cbn [tabs repeat app]. by apply rw_lit; [reflexivity|]. Qed.
Lemma names_tabs d xs : names (map snd (tabs d ++ xs)) = names (map snd xs).
Proof. induction d as [|d IH]; [done|]. cbn [tabs repeat app map]. change (snd (lx [c_tab])) with KTab. by rewrite names_tab. Qed.
Lemma row_fields d xs xs' : row (names (map snd xs)) xs xs' -> fields (tabs (S d) ++ xs ++ [lx [c_nl]]) (tabs (S d) ++ xs' ++ [lx [c_nl]]).
Proof.
  intros H. cbn [tabs repeat app]. fold (tabs d). rewrite !app_assoc. lxs. change (([c_tab], KTab) :: (tabs d ++ xs') ++ [([c_nl], KNewLine)]) with ((([c_tab], KTab) :: tabs d ++ xs') ++ [([c_nl], KNewLine)]).
  apply fl_row; [knot| |constructor]. apply rw_other; [knot|]. rewrite names_tab, names_tabs. by apply tabs_row.
Qed.
Lemma stop_holders hs rest : Forall holder_ok hs -> stops (map snd rest) -> stops (map snd (concat (map (holder_out source) hs) ++ rest)).
Proof.
  intros F H. destruct F as [|h hs Hh F]; [done|]. destruct h as [|m|m k]; cbn [map concat holder_out holder_ok source p_index p_type app] in *; try (apply (stop_other KSquareL); knot).
  destruct Hh as ([-> |M] & _); [apply (stop_other KMap); knot|]. apply (stop_word m); [by apply ident_index|]. apply (stop_other KSquareL); knot.
Qed.
Lemma holders_row hs rest rest' : Forall holder_ok hs -> row 0 rest rest' -> row 0 (concat (map (holder_out source) hs) ++ rest) (concat (map (holder_out field_pen) hs) ++ rest').
Proof.
  intros F H. induction F as [|h hs Hh F IH]; [done|]. cbn [map concat]. rewrite <- !app_assoc. revert IH. generalize (concat (map (holder_out source) hs) ++ rest) (concat (map (holder_out field_pen) hs) ++ rest'). intros ts ts' IH.
  destruct h as [|m|m k]; cbn [holder_out holder_ok app] in *.
  - apply rw_lit; [reflexivity|]. by apply rw_lit.
  - cbn [source field_pen settled p_index]. apply rw_lit; [reflexivity|]. apply rw_word; [done|]. by apply rw_lit.
  - destruct Hh as (M & K & N). change (inside source) with source. rewrite (inside_field k N). cbn [source field_pen settled p_type]. repeat (rewrite <- ?app_assoc; cbn [app]).
    assert (X : row 0 (lx $"[" :: ty_out source k ++ lx $"]" :: ts) (lx $"[" :: ty_out field_pen k ++ lx $"]" :: ts')).
    { apply rw_lit; [reflexivity|]. apply ty_row; [done|]. by apply rw_lit. }
    destruct M as [-> |M]; [rewrite now_lit by reflexivity; by apply rw_lit|]. apply rw_word; [by apply ident_index|done].
Qed.
Lemma field_row n more pad rest rest' : names_ok n more -> stops (map snd rest) -> row 0 rest rest' ->
  row (names (map snd (names_out source n more pad ++ rest))) (names_out source n more pad ++ rest) (names_out field_pen n more pad ++ rest').
Proof.
  intros [[N F]|[-> ->]] St H; rewrite !names_split; cbn [source field_pen settled p_name].
  2: { rewrite now_lit by reflexivity. change (names (map snd (lx $"_" :: ?x))) with 0. cbn [map concat app]. apply rw_lit; [reflexivity|]. by apply (spaces_row 0 (S pad)). }
  pose proof (field_names n more pad rest N F St) as E. rewrite names_tab in E. rewrite E. apply names_row; [done|done|]. by apply spaces_row.
Qed.
Lemma tail_gap tag note x xs : tail_out tag note = x :: xs -> snd x = KSpace.
Proof.
  unfold tail_out. destruct tag as [[k s]|]; [cbn [spaces repeat app]; by intros [= <- _]|]. destruct note as [[k c]|]; [cbn [spaces repeat app]; by intros [= <- _]|done].
Qed.
Lemma embed_row t tag note : ty_ok t -> match t with TWord _ | TGeneric _ _ => True | _ => False end ->
  row (names (map snd (ty_out source t ++ tail_out tag note))) (ty_out source t ++ tail_out tag note) (embed_out field_pen t (tail_out tag note) ++ tail_out tag note).
Proof.
  intros T E. pose proof (tail_row tag note) as R. destruct t as [w|w a| | | | | | | |]; try done.
  - cbn [ty_out source p_type app map]. pose proof (stop_tail tag note) as St. pose proof (tail_gap tag note) as G. destruct (tail_out tag note) as [|x xs].
    + unfold embed_out. cbn [ty_out field_pen settled p_type app map]. replace (names _) with 0; [by apply rw_word; [apply type_index|]|].
      destruct T as [_ K]. rewrite !elem_of_cons, elem_of_nil in K. cbn [lx snd]. by destruct K as [K|[K|[]]]; rewrite K.
    + cbn [embed_out field_pen settled p_name app]. destruct T as [_ K]. rewrite !elem_of_cons, elem_of_nil in K. destruct K as [K|[K|[]]].
      * rewrite lx_raw, now_raw by done. replace (names _) with 1; [by apply rw_name|]. specialize (G x xs eq_refl). unfold names, stops in *. cbn [map snd] in *. rewrite G in *.
        revert St. cbn [name_part]. rewrite !bool_decide_eq_true_2 by knot. intros St.
        rewrite (commas_none (KRaw :: _)) by (apply not_elem_of_cons; split; [discriminate|done]). cbn [gap]. rewrite bool_decide_eq_true_2 by done. by rewrite bool_decide_eq_true_2 by left.
      * rewrite now_other by (by rewrite K). unfold lx at 2 3. rewrite K. replace (names _) with 0; [apply rw_other; [knot|done]|]. cbn [lx snd]. rewrite K. done.
  - cbn [embed_out]. replace (match tail_out tag note with [] => ty_out field_pen (TGeneric w a) | _ :: _ => ty_out field_pen (TGeneric w a) end) with (ty_out field_pen (TGeneric w a)) by (by destruct (tail_out tag note)).
    replace (names _) with 0; [by apply ty_row|]. destruct T as [[_ K] _]. cbn [ty_out source p_type p_index map app lx snd]. by rewrite K.
Qed.
Lemma stop_several rs rest : stops (map snd rest) -> stops (map snd (several source rs ++ rest)).
Proof. intros H. destruct rs as [|o t r]; [done|]. unfold several. cbn [app map]. apply stop_plain; [knot|knot|]. apply (stop_other KParenL); knot. Qed.
Lemma results_row ps : ps_ok ps -> ps_no_func ps -> forall rest rest', row 0 rest rest' -> row 0 (ps_out source ps ++ rest) (ps_out (inside field_pen) ps ++ rest').
Proof.
  induction ps as [|o t r IH]; [done|]. cbn [ps_ok ps_no_func ps_out]. intros (No & T & P) [N1 N2] rest rest' H. rewrite source_out, plain_out, inside_field by done. repeat (rewrite <- ?app_assoc; cbn [app]).
  assert (X : row 0 (ty_out source t ++ match r with PNil => [] | PCons _ _ _ => lx $"," :: lx $" " :: ps_out source r end ++ rest)
    (ty_out field_pen t ++ match r with PNil => [] | PCons _ _ _ => lx $"," :: lx $" " :: ps_out (inside field_pen) r end ++ rest')).
  { apply ty_row; [done|]. destruct r as [|o2 t2 r2]; [done|]. cbn [app]. apply rw_lit; [reflexivity|]. apply rw_lit; [reflexivity|]. by apply IH. }
  destruct o as [n|]; cbn [app]; [|exact X]. cbn [source inside field_pen settled p_name p_index]. destruct No as [N| ->].
  - apply rw_word; [by apply ident_index|]. by apply rw_lit.
  - rewrite now_lit by reflexivity. apply rw_lit; [reflexivity|]. by apply rw_lit.
Qed.
Lemma several_row rs rest rest' : rs = PNil \/ ps_ok rs /\ ps_no_func rs -> row 0 rest rest' -> row 0 (several source rs ++ rest) (several (inside field_pen) rs ++ rest').
Proof.
  intros P H. destruct rs as [|o t r]; [done|]. destruct P as [P|[P N]]; [discriminate P|]. unfold several, in_parens. repeat (rewrite <- ?app_assoc; cbn [app]).
  apply rw_lit; [reflexivity|]. apply rw_lit; [reflexivity|]. apply results_row; [done|done|]. cbn [app]. by apply rw_lit.
Qed.
Lemma srow_fields d r : srow_ok r -> 1 <= d -> fields (srow_out source d r) (srow_out field_pen d r).
Proof.
  intros Ok D. destruct d as [|d]; [lia|].
  assert (Row : forall xs xs' ts ts', xs ++ [lx [c_nl]] = ts -> xs' ++ [lx [c_nl]] = ts' -> row (names (map snd xs)) xs xs' -> fields (tabs (S d) ++ ts) (tabs (S d) ++ ts')) by (intros xs xs' ts ts' <- <-; apply row_fields).
  destruct r as [n more pad t rs tag note|n more pad hs w|tag note|t tag note|c|]; cbn [srow_ok srow_out] in *.
  - destruct Ok as (N & T & Rs & _ & _). eapply Row; [| |apply (field_row n more pad (ty_out source t ++ several source rs ++ tail_out tag note) (ty_out field_pen t ++ several (inside field_pen) rs ++ tail_out tag note) N)].
    + rewrite <- !app_assoc. reflexivity.
    + rewrite <- !app_assoc. reflexivity.
    + apply stop_ty; [done|apply stop_several, stop_tail].
    + apply ty_row; [done|apply several_row; [|apply tail_row]]. destruct Rs as [R|(_ & R)]; [by left|by right].

  - destruct Ok as (N & Hs & W).
    eapply Row; [| |apply (field_row n more pad (concat (map (holder_out source) hs) ++ [lx w; lx $" "; lx $"{"]) (concat (map (holder_out field_pen) hs) ++ [now KParamType w; lx $" "; lx $"{"]) N)].
    + rewrite <- !app_assoc. reflexivity.
    + rewrite <- !app_assoc. reflexivity.
    + apply stop_holders; [done|]. cbn [map]. destruct W as [-> |W]; [apply (stop_other KStruct); knot|]. apply (stop_word w); [by apply ident_index|]. apply (stop_plain KSpace); [knot|discriminate|]. apply (stop_other KCurlyL); knot.
    + apply holders_row; [done|]. assert (X : row 0 [lx $" "; lx $"{"] [lx $" "; lx $"{"]) by (apply rw_lit; [reflexivity|]; apply rw_lit; [reflexivity|constructor]).
      destruct W as [-> |W]; [rewrite now_lit by reflexivity; by apply rw_lit|]. apply rw_word; [by apply ident_index|done].
  - apply (Row (lx $"}" :: tail_out tag note) (lx $"}" :: tail_out tag note)); [done|done|]. change (names (map snd (lx $"}" :: tail_out tag note))) with 0. apply rw_lit; [reflexivity|apply tail_row].
  - destruct Ok as (T & E & _). rewrite embed_source. eapply Row; [| |by apply embed_row]; by rewrite <- app_assoc.
  - apply (Row [comment c] [comment c]); [done|done|]. apply rw_other; [knot|constructor].
  - lxs. apply fl_skip; [knot|constructor].
Qed.
Lemma rows_fields rows : forall d, 1 <= d -> srows_ok d rows -> fields (srows_out source d rows) (srows_out field_pen d rows).
Proof.
  induction rows as [|r rows IH]; [constructor|]. intros d D [R Rs]. cbn [srows_ok srows_out] in *.
  destruct r as [n more pad t rs tag note|n more pad hs w|tag note|t tag note|c|]; apply fields_app; try (apply srow_fields; [done|lia]); apply IH; try done; try lia. apply Rs.
Qed.

(** ** Methods of interfaces *)
Lemma mt_lit w ts ts' : bool_decide (kind_new w ∈ [KTab; KComment; KNewLine; KSpace; KCurlyL]) = true -> methods ts ts' -> methods (lx w :: ts) (lx w :: ts').
Proof. intros K H. apply mt_skip; [by apply bool_decide_eq_true in K|done]. Qed.
Lemma squares_app ks ks2 : squares ks -> squares ks2 -> squares (ks ++ ks2).
Proof.
  intros H H2. induction H as [|k ks N1 N2 H IH|ks ks' H IH H' IH']; cbn [app]; [done|by apply sq_other|]. rewrite <- app_assoc. cbn [app]. by apply sq_pair.
Qed.
Lemma irow_methods r ts ts' : irow_ok r -> methods ts ts' -> methods (irow_src r ++ ts) (irow_after r ++ ts').
Proof.
  destruct r as [n ps r note|w more note|c|]; cbn [irow_ok irow_src irow_after app].
  - intros ([_ K] & P & In & R & _) H. apply mt_lit; [reflexivity|]. rewrite lx_raw by done. repeat (rewrite <- ?app_assoc; cbn [app]).
    assert (L : line_end (note_out note)) by (destruct note as [c|]; unfold note_out; lxs; constructor).
    destruct (group_split ps P In) as (q & q' & u & u' & -> & -> & Pp & Po & _).
    pose proof (mt_method n _ _ _ _ _ _ _ Pp (Po _ _ (results_ok r R)) L H) as X. repeat (rewrite <- ?app_assoc in X; cbn [app] in X). rewrite <- !app_assoc. exact X.
  - intros (W & T & Nb & Hn) H. apply mt_lit; [reflexivity|]. pose proof (proj1 W) as Pw.
    assert (Sq : squares (map snd (map lx more ++ match note with Some c => [lx $" "; comment c] | None => [] end))).
    { rewrite map_app. apply squares_app; [by apply tps_squares, (tps_tail w)|]. destruct note as [c|]; [|constructor]. change (squares [KSpace; KComment]). apply sq_other; [discriminate..|]. apply sq_other; [discriminate..|constructor]. }
    assert (Ne : forall x, x ∈ map snd (map lx more ++ match note with Some c => [lx $" "; comment c] | None => [] end) -> x ∉ [KNewLine; KParenL; KParenR; KCurlyL; KCurlyR]).
    { rewrite map_app. intros x. rewrite elem_of_app. intros [Hx|Hx]; [|destruct note as [c|]; [|by apply elem_of_nil in Hx]; cbn [map] in Hx; rewrite !elem_of_cons, elem_of_nil in Hx; destruct Hx as [-> |[-> |[]]]; knot].
      apply elem_of_list_fmap in Hx as ([t k] & -> & Hx). apply elem_of_list_fmap in Hx as (t' & E & Hx). injection E as -> ->. cbn [snd].
      destruct (tps_tail w more Pw T) as (_ & F & _). rewrite Forall_forall in F, Nb. specialize (F t' Hx). specialize (Nb t' Hx). intros Hk. revert Nb F. clear -Hk.
      assert (R : forall K, K ∈ [KNewLine; KParenL; KParenR; KCurlyL; KCurlyR] -> K ∈ map snd reserved) by (apply Forall_forall; eapply bool_decide_unpack; vm_compute; exact Logic.I).
      pose proof (kind_new_fixed t' _ eq_refl (R _ Hk)) as E. intros Nb F.
      rewrite !elem_of_cons, elem_of_nil in Hk. destruct Hk as [Hk|[Hk|[Hk|[Hk|[Hk|[]]]]]]; rewrite Hk in E; try (apply Nb; rewrite E; knot). rewrite E in F. destruct F as [[_ F]|F]; [|revert F; knot].
      destruct (F c_nl) as [G _]; [left|]. apply G. eapply bool_decide_unpack. vm_compute. exact Logic.I. }
    assert (Kw : kind_new w ∉ [KTab; KComment; KNewLine; KSpace; KCurlyL; KCurlyR; KParenL; KParenR; KSquareL; KSquareR]).
    { destruct W as [_ K]. rewrite !elem_of_cons, elem_of_nil in K. destruct K as [K|[K|[]]]; rewrite K; knot. }
    pose proof (mt_type w (kind_new w) _ [c_nl] ts ts' Kw Ne Sq H) as X. unfold now.
    assert (En : forall us, (map lx more ++ match note with Some c => [lx $" "; comment c] | None => [] end) ++ ([c_nl], KNewLine) :: us = (map lx more ++ note_out note) ++ us).
    { intros us. destruct note as [c|]; unfold note_out; lxs; by rewrite <- !app_assoc. }
    rewrite !En in X. exact X.
  - intros _ H. apply mt_lit; [reflexivity|]. apply mt_skip; [knot|]. by apply mt_lit.
  - intros _ H. by apply mt_lit.
Qed.
Lemma rows_methods rows : Forall irow_ok rows -> methods (concat (map irow_src rows)) (concat (map irow_after rows)).
Proof. induction 1 as [|r rows H F IH]; [constructor|]. cbn [map concat]. by apply irow_methods. Qed.

(** ** Types *)
Lemma te_lit w ts ts' : bool_decide (kind_new w ∉ [KInterface; KStruct; KFunc; KRaw; KSquareL]) = true -> texpr ts ts' -> texpr (lx w :: ts) (lx w :: ts').
Proof. intros K H. apply te_other; [by apply bool_decide_eq_true in K|done]. Qed.
Lemma te_blank k : texpr (blank k) (blank k).
Proof. induction k as [|k IH]; [constructor|]. cbn [blank repeat]. by apply te_lit. Qed.
Lemma te_index n ts ts' : index_word n -> texpr ts ts' -> texpr (lx $"[" :: lx n :: lx $"]" :: ts) (lx $"[" :: lx n :: lx $"]" :: ts').
Proof. intros N H. lxs. exact (te_square $"[" [lx n] $"]" _ _ (index_squares n N) H). Qed.
Lemma te_ty_index t ts ts' : ty_ok t -> texpr ts ts' -> texpr (lx $"[" :: ty_out source t ++ lx $"]" :: ts) (lx $"[" :: ty_out source t ++ lx $"]" :: ts').
Proof. intros N H. lxs. apply te_square; [by apply ty_squares|done]. Qed.
Lemma te_symbol w ts ts' : symbol w -> texpr ts ts' -> texpr (lx w :: ts) (lx w :: ts').
Proof. intros [_ K] H. unfold lx. rewrite K. apply te_other; [knot|done]. Qed.
(** The end of a line, without the line break. *)
Lemma note_parts note ts : note_out note ++ ts = note_part note ++ lx [c_nl] :: ts.
Proof. by destruct note. Qed.
Lemma note_ending note : note_part note = [] \/ exists s c, note_part note = [(s, KSpace); (c, KComment)].
Proof. destruct note as [c|]; [right|by left]. exists $" ", ($"//" ++ c). done. Qed.
Lemma te_note note bl : texpr bl bl -> texpr (note_out note ++ bl) (note_out note ++ bl).
Proof.
  intros H. destruct note as [c|]; cbn [note_out app]; [|by apply te_lit]. apply te_lit; [reflexivity|]. apply te_other; [knot|]. by apply te_lit.
Qed.
(** What begins with a name is one node. *)
Lemma te_one t n ws note bl : ty_out source t = lx n :: ws -> ident n -> kinds_in flat_ks ws -> squares (map snd ws) -> texpr bl bl ->
  texpr (lx n :: ws ++ note_out note ++ bl) (one_node t note ++ bl).
Proof.
  intros Et [_ K] F Sq H. assert (Nk : forall x, x ∈ map snd ws -> x ∉ [KNewLine; KComment; KParenL; KCurlyL; KFunc]) by (intros x Hx; exact (ki_no flat_ks [KNewLine; KComment; KParenL; KCurlyL; KFunc] _ F eq_refl x Hx)).
  unfold one_node. rewrite Et. unfold spelling. destruct note as [c|]; cbn [note_out app].
  - assert (Sq' : squares (map snd (ws ++ [lx $" "]))).
    { rewrite map_app. apply squares_app; [done|]. apply sq_other; [knot|knot|constructor]. }
    assert (Em : merged ((n, KRaw) :: ws ++ [lx $" "]) = (concat (map fst (lx n :: ws)) ++ $" ", KParamType)).
    { unfold merged. cbn [map concat fst lx]. by rewrite map_app, concat_app, <- app_assoc. }
    rewrite <- Em. pose proof (te_name n (ws ++ [lx $" "]) [comment c] [c_nl] bl bl) as X. rewrite <- app_assoc in X. cbn [app] in X. rewrite lx_raw by done. apply X; [|exact Sq'|by repeat constructor|exact H].
    intros x Hx. rewrite map_app in Hx. apply elem_of_app in Hx as [Hx|Hx]; [by apply Nk|]. apply elem_of_list_singleton in Hx as ->. knot.
  - rewrite lx_raw by done. rewrite lx_nl. apply (te_name n ws [] [c_nl] bl bl); [done|done|constructor|done].
Qed.
Lemma tail_squares n ws : ident n -> squares (map snd (lx n :: ws)) -> squares (map snd ws).
Proof. intros [_ K] H. cbn [map lx snd] in H. rewrite K in H. by inversion H. Qed.
Lemma flat_one t n ws note bl : ty_out source t = lx n :: ws -> ty_ok t -> ident n -> flat t -> texpr bl bl -> texpr (ty_out source t ++ note_out note ++ bl) (one_node t note ++ bl).
Proof.
  intros E Ok N F H. pose proof (ty_squares t Ok) as Sq. pose proof (proj1 flat_kinds_all t Ok F) as Ki. pose proof E as Et. rewrite E in *. cbn [app].
  apply Forall_cons in Ki as [_ Ki]. apply te_one; [done|done|done|by apply tail_squares in Sq|done].
Qed.
(** Results of function types *)
Lemma tr_lit w ts ts' : bool_decide (kind_new w ∉ [KNewLine; KRaw; KParenL; KCurlyL; KSquareL]) = true -> type_results ts ts' -> type_results (lx w :: ts) (lx w :: ts').
Proof. intros K H. apply tr_other; [by apply bool_decide_eq_true in K|done]. Qed.
Lemma nr_lit w ts ts' : bool_decide (kind_new w ∉ [KNewLine; KSpace; KParenL; KCurlyL; KSquareL]) = true -> named_result ts ts' -> named_result (lx w :: ts) (lx w :: ts').
Proof. intros K H. apply nr_other; [by apply bool_decide_eq_true in K|done]. Qed.
Lemma nr_raw w ts ts' : ident w -> named_result ts ts' -> named_result (lx w :: ts) (lx w :: ts').
Proof. intros [_ K] H. unfold lx. rewrite K. apply nr_other; [knot|done]. Qed.
Lemma nr_end e : e = [] \/ (exists s c, e = [(s, KSpace); (c, KComment)]) -> named_result e e.
Proof. intros H. apply (nr_results [] []); [constructor|done]. Qed.
Lemma tr_end e : e = [] \/ (exists s c, e = [(s, KSpace); (c, KComment)]) -> type_results e e.
Proof. intros [-> |(s & c & ->)]; [constructor|]. apply tr_other; [knot|]. apply tr_other; [knot|]. constructor. Qed.
(** What comes after the type, [e], becomes [e']; [Q] says that it may come after
    every type. *)
Section Results.
Variable e e' : list lexeme.
Variable Q : Prop.
Hypothesis Hn : named_result e e'.
Hypothesis Ht : type_results e e'.
Hypothesis after_result : forall t, ty_ok t -> res_ty t -> Q \/ ends_func t -> named_result (lx $" " :: ty_out source t ++ e) (lx $" " :: res_type t ++ e').
Lemma nr_func ps ts ts' : ps_ok ps -> named_result ts ts' -> named_result (lx $"func" :: lx $"(" :: ps_out source ps ++ lx $")" :: ts) (lx $"func" :: lx $"(" :: ps_out param_pen ps ++ lx $")" :: ts').
Proof.
  intros P H. apply nr_lit; [reflexivity|]. pose proof (nr_list _ _ _ _ (parens_ok ps P) H) as X. unfold in_parens in X. repeat (rewrite <- ?app_assoc in X; cbn [app] in X). exact X.
Qed.
Lemma tr_func ps ts ts' : ps_ok ps -> type_results ts ts' -> type_results (lx $"func" :: lx $"(" :: ps_out source ps ++ lx $")" :: ts) (lx $"func" :: lx $"(" :: ps_out param_pen ps ++ lx $")" :: ts').
Proof.
  intros P H. apply tr_lit; [reflexivity|]. pose proof (tr_list _ _ _ _ (parens_ok ps P) H) as X. unfold in_parens in X. repeat (rewrite <- ?app_assoc in X; cbn [app] in X). exact X.
Qed.
Lemma args_square w args : ty_ok (TGeneric w args) -> squares (map snd (ps_out source args)).
Proof.
  intros Ok. pose proof (ty_squares _ Ok) as Sq. destruct Ok as ([_ K] & _ & A & _). apply kmatched_squares. eapply (inline_kmatched (ml := true)). by apply args_inline.
Qed.
Lemma after_named t : ty_ok t -> after_ok t -> Q \/ ends_func t -> named_result (ty_out source t ++ e) (after_name t ++ e').
Proof.
  assert (Sq : forall xs ts ts', squares (map snd xs) -> named_result ts ts' -> named_result (lx $"[" :: xs ++ lx $"]" :: ts) (lx $"[" :: xs ++ lx $"]" :: ts')).
  { intros xs ts ts' N H. lxs. by apply nr_square. }
  induction t as [w|w args|t IH|n t IH|m k _ t IH|c t IH|w|s t IH|ps|ps r IH]; intros Ok A Ef; pose proof Ok as Ok0; cbn [ends_func ty_ok after_ok after_name ty_out source p_type p_index] in *; change (inside source) with source; repeat (rewrite <- ?app_assoc; cbn [app]).
  - destruct Ok as [_ K]. rewrite !elem_of_cons, elem_of_nil in K. unfold lx. destruct K as [-> |[-> |[]]]; (apply nr_other; [knot|]); exact Hn.
  - destruct Ok as (W & _). apply nr_raw; [done|]. apply Sq; [by eapply args_square|]. exact Hn.
  - apply (Sq []); [constructor|]. by apply IH.
  - destruct Ok as [N Ok]. apply (Sq [lx n]); [by apply index_squares|]. by apply IH.
  - destruct Ok as (M & K & _ & Ok). assert (X : named_result (lx $"[" :: ty_out source k ++ lx $"]" :: ty_out source t ++ e) (lx $"[" :: ty_out source k ++ lx $"]" :: after_name t ++ e')) by (apply Sq; [by apply ty_squares|by apply IH]).
    destruct M as [-> |M]; [by apply nr_lit|by apply nr_raw].
  - destruct Ok as (M & Ok). pose proof (after_result t Ok A Ef) as X. destruct M as [-> |M]; [by apply nr_lit|by apply nr_raw].
  - assert (X : named_result (lx $"{" :: lx $"}" :: e) (lx $"{" :: lx $"}" :: e')) by (lxs; apply (nr_curly $"{" [] $"}"); [constructor|exact Hn]).
    destruct Ok as [W|W]; [|by apply nr_raw]. rewrite !elem_of_cons, elem_of_nil in W. destruct W as [-> |[-> |[]]]; by apply nr_lit.
  - destruct Ok as ([_ K] & Ok & _). unfold lx at 1 2. rewrite K. apply nr_other; [knot|]. by apply IH.
  - unfold in_parens. cbn [app]. rewrite <- app_assoc. cbn [app]. apply nr_func; [done|exact Hn].
  - destruct Ok as [P Ok]. unfold in_parens. repeat (rewrite <- ?app_assoc; cbn [app]). apply nr_func; [done|]. by apply after_result.
Qed.
Lemma first_named t : ty_ok t -> first_ok t -> Q \/ ends_func t -> type_results (ty_out source t ++ e) (named_first t ++ e').
Proof.
  assert (Sq : forall xs ts ts', squares (map snd xs) -> type_results ts ts' -> type_results (lx $"[" :: xs ++ lx $"]" :: ts) (lx $"[" :: xs ++ lx $"]" :: ts')).
  { intros xs ts ts' N H. lxs. by apply tr_square. }
  assert (Nm : forall w ts ts', ident w -> named_result ts ts' -> type_results (lx w :: ts) (now KFuncName w :: ts')).
  { intros w ts ts' [_ K] H. rewrite lx_raw, now_raw by done. by apply tr_name. }
  assert (Sq' : forall xs ts ts', squares (map snd xs) -> named_result ts ts' -> named_result (lx $"[" :: xs ++ lx $"]" :: ts) (lx $"[" :: xs ++ lx $"]" :: ts')).
  { intros xs ts ts' N H. lxs. by apply nr_square. }
  induction t as [w|w args|t IH|n t IH|m k _ t IH|c t IH|w|s t IH|ps|ps r IH]; intros Ok A Ef; pose proof Ok as Ok0; cbn [ends_func ty_ok first_ok named_first ty_out source p_type p_index] in *; change (inside source) with source; repeat (rewrite <- ?app_assoc; cbn [app]).
  - destruct Ok as [W K]. rewrite !elem_of_cons, elem_of_nil in K. destruct K as [K|[K|[]]]; [apply Nm; [done|exact Hn]|].
    rewrite now_other by (by rewrite K). unfold lx. rewrite K. apply tr_other; [knot|]. exact Ht.
  - destruct Ok as (W & _). apply Nm; [done|]. apply Sq'; [by eapply args_square|]. exact Hn.
  - apply (Sq []); [constructor|]. by apply IH.
  - destruct Ok as [N Ok]. apply (Sq [lx n]); [by apply index_squares|]. by apply IH.
  - destruct Ok as (M & K & _ & Ok). destruct (bool_decide (m = $"map")) eqn:E.
    + apply bool_decide_eq_true in E as ->. rewrite now_lit by reflexivity. apply tr_lit; [reflexivity|]. apply Sq; [by apply ty_squares|by apply IH].
    + apply bool_decide_eq_false in E. destruct M as [M|M]; [done|]. apply Nm; [done|]. apply Sq'; [by apply ty_squares|by apply after_named].
  - destruct Ok as (M & Ok). destruct (bool_decide (c = $"chan")) eqn:E.
    + apply bool_decide_eq_true in E as ->. rewrite now_lit by reflexivity. apply tr_lit; [reflexivity|]. apply tr_lit; [reflexivity|]. by apply IH.
    + apply bool_decide_eq_false in E. destruct M as [M|M]; [done|]. apply Nm; [done|]. by apply after_result.
  - destruct Ok as [W|W].
    + rewrite !elem_of_cons, elem_of_nil in W. assert (X : type_results (lx $"{" :: lx $"}" :: e) (lx $"{" :: lx $"}" :: e')) by (lxs; apply (tr_curly $"{" [] $"}"); [constructor|exact Ht]).
      destruct W as [-> |[-> |[]]]; (rewrite now_lit by reflexivity); by apply tr_lit.
    + apply Nm; [done|]. lxs. apply (nr_curly $"{" [] $"}"); [constructor|exact Hn].
  - destruct Ok as ([_ K] & Ok & _). unfold lx at 1 2. rewrite K. apply tr_other; [knot|]. by apply IH.
  - unfold in_parens. cbn [app]. rewrite <- app_assoc. cbn [app]. apply tr_func; [done|exact Ht].
  - destruct Ok as [P Ok]. unfold in_parens. repeat (rewrite <- ?app_assoc; cbn [app]). apply tr_func; [done|]. apply tr_lit; [reflexivity|]. by apply IH.
Qed.
End Results.
Lemma first_note note t : ty_ok t -> first_ok t -> type_results (ty_out source t ++ note_part note) (named_first t ++ note_part note).
Proof.
  intros Ok F. pose proof (note_ending note) as He. apply (first_named _ _ True); [by apply nr_end|by apply tr_end| |done|done|by left].
  intros u Ou R _. exact (nr_results (lx $" " :: ty_out source u) (lx $" " :: res_type u) _ (single_ok u Ou R) He).
Qed.
Lemma first_several note t rs : ty_ok t -> first_ok t -> ends_func t -> ps_ok rs ->
  type_results (ty_out source t ++ several source rs ++ note_part note) (named_first t ++ several param_pen rs ++ note_part note).
Proof.
  intros Ok F E P. pose proof (note_ending note) as He.
  assert (X : results (several source rs) (several param_pen rs)).
  { rewrite <- (app_nil_r (several source rs)), <- (app_nil_r (several param_pen rs)). apply several_ok; [done|constructor]. }
  apply (first_named _ _ False); [by apply nr_results| | |done|done|by right].
  - destruct rs as [|o u r]; [by apply tr_end|]. unfold several. cbn [app]. apply tr_lit; [reflexivity|]. apply tr_list; [by apply parens_ok|by apply tr_end].
  - intros u Ou R [[]|Eu]. pose proof (nr_results _ _ _ (ended_ok u rs Ou R Eu P) He) as Y. repeat (rewrite <- ?app_assoc in Y; cbn [app] in Y). exact Y.
Qed.
Lemma func_type_ok ps ps' r r' note bl : parens KParamName KParamType ps ps' -> type_results (r ++ note_part note) (r' ++ note_part note) -> texpr bl bl ->
  texpr (lx $"func" :: ps ++ r ++ note_out note ++ bl) (lx $"func" :: ps' ++ r' ++ note_out note ++ bl).
Proof.
  intros P R H. pose proof (te_func $"func" _ _ _ _ [c_nl] bl bl P R H) as X. rewrite <- !app_assoc in X. rewrite !note_parts. exact X.
Qed.
Lemma flat_no_func t : flat t -> ~ ends_func t.
Proof. induction t; cbn [flat ends_func]; try done; intros F; try by (destruct F; auto). by intros []. Qed.
Lemma type_ok t rs note bl : ty_ok t -> alone t -> rs = PNil \/ ends_func t /\ ps_ok rs -> texpr bl bl ->
  texpr (ty_out source t ++ several source rs ++ note_out note ++ bl) (type_after t rs note ++ bl).
Proof.
  intros Ok Al Er H. induction t as [w|w args|t IH|n t IH|m k _ t IH|c t IH|w|s t IH|ps|ps r IH]; cbn [alone type_after ends_func] in *.
  - destruct Er as [-> |[[] _]]. cbn [several app]. destruct (bool_decide (kind_new w = KRaw)) eqn:E.
    + apply bool_decide_eq_true in E. eapply flat_one; [reflexivity|done| |done|done]. split; [apply Ok|done].
    + apply bool_decide_eq_false in E. destruct Ok as [_ K]. rewrite !elem_of_cons, elem_of_nil in K. cbn [ty_out source p_type app]. destruct K as [K|[K|[]]]; [done|].
      unfold lx at 1 2. rewrite K. apply te_other; [knot|]. by apply te_note.
  - destruct Er as [-> |[[] _]]. cbn [several app]. eapply flat_one; [reflexivity|done|apply Ok|done|done].
  - cbn [ty_ok ty_out app] in *. lxs. apply (te_square $"[" [] $"]"); [constructor|]. by apply IH.
  - cbn [ty_ok ty_out source p_index app] in *. destruct Ok as [A Ok]. apply te_index; [done|]. by apply IH.
  - destruct (bool_decide (m = $"map")) eqn:E.
    + apply bool_decide_eq_true in E as ->. cbn [ty_ok ty_out source p_type p_index app] in *. change (inside source) with source. destruct Ok as (_ & K & _ & Ok). rewrite <- !app_assoc. cbn [app]. apply te_lit; [reflexivity|].
      apply te_ty_index; [done|]. by apply IH.
    + destruct Er as [-> |[Ef _]]; [|exfalso; eapply flat_no_func; [apply Al|exact Ef]]. cbn [several app].
      apply bool_decide_eq_false in E. eapply flat_one; [reflexivity|done| |done|done]. by destruct Ok as [[M|M] _].
  - destruct (bool_decide (c = $"chan")) eqn:E.
    + apply bool_decide_eq_true in E as ->. cbn [ty_ok ty_out source p_type p_index app] in *. destruct Ok as (_ & Ok). apply te_lit; [reflexivity|]. apply te_lit; [reflexivity|]. by apply IH.
    + destruct Er as [-> |[Ef _]]; [|exfalso; eapply flat_no_func; [apply Al|exact Ef]]. cbn [several app].
      apply bool_decide_eq_false in E. eapply flat_one; [reflexivity|done| |done|done]. by destruct Ok as [[M|M] _].
  - destruct Er as [-> |[[] _]]. cbn [several app]. pose proof (te_note note bl H) as X. cbn [ty_out source p_type app]. rewrite !elem_of_cons, elem_of_nil in Al. destruct Al as [-> |[-> |[]]]; rewrite ?lx_struct, ?lx_interface, lx_co, lx_cc.
    + apply (te_interface $"interface" [] $"{" [] [] $"}"); [knot|constructor|done].
    + apply (te_struct $"struct" [] $"{" [] [] $"}"); [knot|constructor|done].
  - cbn [ty_ok ty_out source p_type app] in *. destruct Ok as (Sy & Ok & _). apply te_symbol; [done|]. by apply IH.
  - cbn [ty_ok ty_out app] in *.
    assert (Tr : type_results (several source rs ++ note_part note) (several param_pen rs ++ note_part note)).
    { destruct rs as [|o u r]; [by apply tr_end, note_ending|]. destruct Er as [Er|[_ P]]; [discriminate Er|]. unfold several. cbn [app]. apply tr_lit; [reflexivity|].
      apply tr_list; [by apply parens_ok|]. by apply tr_end, note_ending. }
    pose proof (func_type_ok _ _ _ _ note bl (parens_ok ps Ok) Tr H) as X.
    unfold in_parens in *. repeat (rewrite <- ?app_assoc in X; cbn [app] in X). repeat (rewrite <- ?app_assoc; cbn [app]). exact X.
  - cbn [ty_ok ty_out app] in *. destruct Ok as [P R].
    assert (Tr : type_results ((ty_out source r ++ several source rs) ++ note_part note) ((named_first r ++ several param_pen rs) ++ note_part note)).
    { rewrite <- !app_assoc. destruct Er as [-> |[Ef Pr]]; [by apply first_note|by apply first_several]. }
    pose proof (func_type_ok _ _ (lx $" " :: ty_out source r ++ several source rs) (lx $" " :: named_first r ++ several param_pen rs) note bl (parens_ok ps P) (tr_lit $" " _ _ eq_refl Tr) H) as X.
    unfold in_parens in *. repeat (rewrite <- ?app_assoc in X; cbn [app] in X). repeat (rewrite <- ?app_assoc; cbn [app]). exact X.
Qed.
Lemma tps_params tps : tps_ok tps -> type_params (tps_out tps).
Proof.
  intros T. pose proof (tps_squares tps T) as Sq. destruct tps as [|t tps]; [constructor|]. unfold tps_out. lxs. by apply tp_some.
Qed.
Lemma space_pre : forall x, x ∈ map snd [lx $" "] -> x ∉ [KRaw; KCurlyR; KNewLine].
Proof. intros x Hx. cbn [map lx snd] in Hx. apply elem_of_list_singleton in Hx as ->. knot. Qed.
Lemma type_head_ok name tps ts ts' : ident name -> tps_ok tps -> texpr ts ts' -> type_decl (type_head (lx name) tps ++ ts) (type_head (name, KTypeName) tps ++ ts').
Proof.
  intros [_ K] T H. unfold type_head. rewrite (lx_raw name K). cbn [app]. rewrite <- !app_assoc. cbn [app].
  exact (td_type $"type" [lx $" "] name (tps_out tps) $" " ts ts' space_pre (tps_params tps T) H).
Qed.
Lemma type_decl_ok d k : decl_ok d -> decl_kind d = $"type" -> match d with DOther _ _ => False | _ => True end -> type_decl (decl_src d ++ blank k) (decl_after d ++ blank k).
Proof.
  pose proof (fun note => te_note note _ (te_blank k)) as Bl.
  destruct d as [recv name tps ps r body note|name tps rows note|name tps rows note|name tps alias t rs note|name tps ps r note|code|kw code|c|c]; intros Ok Kd Nd; try discriminate; try done; cbn [decl_src decl_after decl_ok] in *.
  - destruct Ok as (N & T & F & _). rewrite <- !app_assoc. apply type_head_ok; [done|done|]. cbn [app]. rewrite <- !app_assoc. cbn [app].
    assert (Fl : fields (lx [c_nl] :: srows_out source 1 rows) (lx [c_nl] :: srows_out field_pen 1 rows)) by (rewrite lx_nl; apply fl_skip; [knot|by apply rows_fields; [lia|]]).
    exact (te_struct $"struct" [lx $" "] $"{" _ _ $"}" _ _ ltac:(knot) Fl (Bl note)).
  - destruct Ok as (N & T & F & _). rewrite <- !app_assoc. apply type_head_ok; [done|done|]. cbn [app]. rewrite <- !app_assoc. cbn [app].
    assert (Fl : methods (lx [c_nl] :: concat (map irow_src rows)) (lx [c_nl] :: concat (map irow_after rows))) by (apply mt_lit; [reflexivity|by apply rows_methods]).
    exact (te_interface $"interface" [lx $" "] $"{" _ _ $"}" _ _ ltac:(knot) Fl (Bl note)).
  - destruct Ok as (N & T & Tt & Al & Er & _). rewrite <- !app_assoc. apply type_head_ok; [done|done|].
    pose proof (type_ok t rs note (blank k) Tt Al Er (te_blank k)) as X. destruct alias; cbn [alias_out app]; [|exact X]. apply te_lit; [reflexivity|]. by apply te_lit.
  - destruct Ok as (N & T & P & In & R & _). rewrite <- !app_assoc. apply type_head_ok; [done|done|]. cbn [app]. rewrite <- !app_assoc.
    destruct (group_split ps P In) as (q & q' & u & u' & -> & -> & Pp & _ & Pt).
    enough (X : type_results (res_src r ++ note_part note) (fres_after r ++ note_part note)).
    { pose proof (func_type_ok _ _ (u ++ res_src r) (u' ++ fres_after r) note (blank k) Pp) as Y. rewrite <- !app_assoc in Y. rewrite <- !app_assoc. apply Y; [|apply te_blank]. by apply Pt. }
    pose proof (note_ending note) as He. destruct r as [|t|t rr|rs]; cbn [res_src fres_after res_after fres_ok res_ok app] in *.
    + by apply tr_end.
    + apply tr_lit; [reflexivity|]. by apply first_note; apply R.
    + apply tr_lit; [reflexivity|]. rewrite <- !app_assoc. by apply first_several; apply R.
    + apply tr_lit; [reflexivity|]. apply tr_list; [apply group_ok_parens; apply R|]. by apply tr_end.
  - pose proof (td_group $"type" [lx $" "; lx $"("] [c_nl] (code ++ lx $")" :: lx [c_nl] :: blank k)) as X. cbn [app] in *. rewrite <- !app_assoc. apply X.
    intros x Hx. cbn [map lx snd] in Hx. rewrite !elem_of_cons, elem_of_nil in Hx. destruct Hx as [-> |[-> |[]]]; knot.
Qed.
