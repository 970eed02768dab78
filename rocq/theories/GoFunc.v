(** The grammar of SpecGo.v: functions. *)
From Verif Require Import SpecGo P_Get PrefixProofs GoProofs GoLayout GoKinds.

(** ** Kinds of the tokens of a type *)
Definition tight_ks : list kind := [KRaw; KBasic; KNumber; KSquareL; KSquareR; KMap; KSymbol].
Definition flat_ks : list kind := tight_ks ++ [KChannel; KSpace; KComma].
Definition calm_ks : list kind := flat_ks ++ [KInterface; KStruct; KCurlyL; KCurlyR].
Definition kinds_in (ks : list kind) (xs : list lexeme) : Prop := Forall (fun x => snd x ∈ ks) xs.
Lemma ki_lit ks w xs : bool_decide (kind_new w ∈ ks) = true -> kinds_in ks xs -> kinds_in ks (lx w :: xs).
Proof. intros E H. constructor; [by apply bool_decide_eq_true in E|done]. Qed.
Lemma ki_raw ks w xs : KRaw ∈ ks -> ident w -> kinds_in ks xs -> kinds_in ks (lx w :: xs).
Proof. intros E [_ K] H. constructor; [cbn [lx snd]; by rewrite K|done]. Qed.
Lemma ki_symbol ks w xs : KSymbol ∈ ks -> symbol w -> kinds_in ks xs -> kinds_in ks (lx w :: xs).
Proof. intros E [_ K] H. constructor; [cbn [lx snd]; by rewrite K|done]. Qed.
Lemma ki_index ks w xs : Forall (fun k => k ∈ ks) [KRaw; KBasic; KNumber] -> index_word w -> kinds_in ks xs -> kinds_in ks (lx w :: xs).
Proof. intros E [_ K] H. constructor; [|done]. rewrite Forall_forall in E. by apply E. Qed.
Lemma ki_word ks w xs : Forall (fun k => k ∈ ks) [KRaw; KBasic; KNumber] -> type_word w -> kinds_in ks xs -> kinds_in ks (lx w :: xs).
Proof. intros E [W K] H. apply ki_index; [done| |done]. split; [done|]. rewrite !elem_of_cons, elem_of_nil in *. tauto. Qed.
Lemma ki_app ks xs ys : kinds_in ks xs -> kinds_in ks ys -> kinds_in ks (xs ++ ys). Proof. intros A B. by apply Forall_app. Qed.
Lemma ki_no (ks bad : list kind) xs : kinds_in ks xs -> forallb (fun k => negb (bool_decide (k ∈ bad))) ks = true -> forall k, k ∈ map snd xs -> k ∉ bad.
Proof.
  intros Ti F k Hk Hb. rewrite forallb_forall in F. apply elem_of_list_fmap in Hk as (x & -> & Hx). unfold kinds_in in Ti. rewrite Forall_forall in Ti. specialize (Ti x Hx).
  apply elem_of_list_In in Ti. specialize (F _ Ti). by rewrite bool_decide_eq_true_2 in F.
Qed.
Lemma calm_kinds_all : (forall t, ty_ok t -> no_func t -> kinds_in calm_ks (ty_out source t)) /\ (forall ps, args_ok ps -> ps_no_func ps -> kinds_in calm_ks (ps_out source ps)).
Proof.
  assert (A : Forall (fun k => k ∈ calm_ks) [KRaw; KBasic; KNumber]) by knot. assert (R : KRaw ∈ calm_ks) by knot. assert (Sy : KSymbol ∈ calm_ks) by knot.
  assert (Nil : kinds_in calm_ks []) by constructor.
  apply ty_plist_ind; cbn [ty_ok args_ok no_func ps_no_func ty_out ps_out source p_type p_index p_name]; change (inside source) with source; try done.
  - intros w W _. by apply ki_word.
  - intros w args IH (W & _ & Ao & _) N. apply ki_raw; [done|done|]. apply ki_lit; [reflexivity|]. apply ki_app; [by apply IH|]. by apply ki_lit.
  - intros t IH Ok N. apply ki_lit; [reflexivity|]. apply ki_lit; [reflexivity|]. by apply IH.
  - intros n t IH [X Ok] N. apply ki_lit; [reflexivity|]. apply ki_index; [done|done|]. apply ki_lit; [reflexivity|]. by apply IH.
  - intros m k IHk t IH (M & Ok & _ & Ot) [N1 N2]. assert (H : kinds_in calm_ks (lx $"[" :: ty_out source k ++ lx $"]" :: ty_out source t)).
    { apply ki_lit; [reflexivity|]. apply ki_app; [by apply IHk|]. apply ki_lit; [reflexivity|]. by apply IH. }
    destruct M as [-> |M]; [by apply ki_lit|by apply ki_raw].
  - intros c t IH (M & Ot) N. assert (H : kinds_in calm_ks (lx $" " :: ty_out source t)) by (apply ki_lit; [reflexivity|by apply IH]).
    destruct M as [-> |M]; [by apply ki_lit|by apply ki_raw].
  - intros w W _. assert (H : kinds_in calm_ks [lx $"{"; lx $"}"]) by (apply ki_lit; [reflexivity|]; by apply ki_lit).
    destruct W as [W|W]; [|by apply ki_raw]. rewrite !elem_of_cons, elem_of_nil in W. destruct W as [-> |[-> |[]]]; by apply ki_lit.
  - intros s t IH (Ss & Ot & _) N. apply ki_symbol; [done|done|by apply IH].
  - intros o t IHt rest IHr (-> & Ot & Or) [N1 N2]. rewrite source_out. cbn [app]. apply ki_app; [by apply IHt|]. destruct rest as [|o2 t2 r2]; [done|]. apply ki_lit; [reflexivity|]. apply ki_lit; [reflexivity|]. by apply IHr.
Qed.
Lemma flat_kinds_all : (forall t, ty_ok t -> flat t -> kinds_in flat_ks (ty_out source t)) /\ (forall ps, args_ok ps -> ps_flat ps -> kinds_in flat_ks (ps_out source ps)).
Proof.
  assert (A : Forall (fun k => k ∈ flat_ks) [KRaw; KBasic; KNumber]) by knot. assert (R : KRaw ∈ flat_ks) by knot. assert (Sy : KSymbol ∈ flat_ks) by knot.
  assert (Nil : kinds_in flat_ks []) by constructor.
  apply ty_plist_ind; cbn [ty_ok args_ok flat ps_flat ty_out ps_out source p_type p_index p_name]; change (inside source) with source; try done.
  - intros w W _. by apply ki_word.
  - intros w args IH (W & _ & Ao & _) N. apply ki_raw; [done|done|]. apply ki_lit; [reflexivity|]. apply ki_app; [by apply IH|]. by apply ki_lit.
  - intros t IH Ok N. apply ki_lit; [reflexivity|]. apply ki_lit; [reflexivity|]. by apply IH.
  - intros n t IH [X Ok] N. apply ki_lit; [reflexivity|]. apply ki_index; [done|done|]. apply ki_lit; [reflexivity|]. by apply IH.
  - intros m k IHk t IH (M & Ok & _ & Ot) [N1 N2]. assert (H : kinds_in flat_ks (lx $"[" :: ty_out source k ++ lx $"]" :: ty_out source t)).
    { apply ki_lit; [reflexivity|]. apply ki_app; [by apply IHk|]. apply ki_lit; [reflexivity|]. by apply IH. }
    destruct M as [-> |M]; [by apply ki_lit|by apply ki_raw].
  - intros c t IH (M & Ot) N. assert (H : kinds_in flat_ks (lx $" " :: ty_out source t)) by (apply ki_lit; [reflexivity|by apply IH]).
    destruct M as [-> |M]; [by apply ki_lit|by apply ki_raw].
  - intros s t IH (Ss & Ot & _) N. apply ki_symbol; [done|done|by apply IH].
  - intros o t IHt rest IHr (-> & Ot & Or) [N1 N2]. rewrite source_out. cbn [app]. apply ki_app; [by apply IHt|]. destruct rest as [|o2 t2 r2]; [done|]. apply ki_lit; [reflexivity|]. apply ki_lit; [reflexivity|]. by apply IHr.
Qed.
(** The kinds of the tokens a word of a result consists of. *)
Definition joint_ks : list kind := tight_ks ++ [KChannel; KComma; KInterface; KStruct].

(** ** Receivers *)
Lemma calm_refines N T t : ty_ok t -> no_func t -> forall rest rest', refines false N T true rest rest' ->
  refines false N T true (ty_out source t ++ rest) (ty_out (settled N T false) t ++ rest') /\
  (refines false N T false rest rest' -> refines false N T false (ty_out source t ++ rest) (unnamed (settled N T false) t ++ rest')).
Proof.
  induction t as [w|w args|t IH|n t IH|m k _ t IH|c t IH|w|s t IH|ps|ps r IH]; cbn [ty_ok no_func ty_out unnamed source settled p_name p_type p_index]; change (inside (settled N T false)) with (index_pen false); change (inside source) with source; try done; cbn [app].
  - intros [_ K] _ rest rest' H. split; [by apply rf_word|]. intros H'. by apply rf_first_word.
  - intros ([_ K] & _ & A & _) _ rest rest' H. rewrite <- !app_assoc. cbn [app]. split; [apply rf_word; [rewrite K; left|]|intros H'; apply rf_first; [done|]]; by apply (rf_args false).
  - intros Ok F rest rest' H. destruct (IH Ok F rest rest' H) as [I1 I2]. split; [by apply rf_empty_index|]. intros H'. apply rf_empty_index. by apply I2.
  - intros [A Ok] F rest rest' H. destruct (IH Ok F rest rest' H) as [I1 I2]. split; [by apply (rf_index false)|]. intros H'. apply (rf_index false); [done|]. by apply I2.
  - intros (M & K & _ & Ok) [_ F] rest rest' H. destruct (IH Ok F rest rest' H) as [I1 I2]. rewrite <- !app_assoc. cbn [app]. destruct (decide (m = $"map")) as [-> |Nm].
    + rewrite !now_lit by reflexivity. rewrite bool_decide_eq_true_2 by done. split; [|intros H'; specialize (I2 H')]; (apply pl_lit; [reflexivity|]); by apply (rf_ty_index false).
    + rewrite bool_decide_eq_false_2 by done. destruct M as [M|[_ M]]; [done|]. split; [apply rf_word; [rewrite M; left|]; by apply (rf_ty_index false)|]. intros H'. apply rf_first; [done|]. by apply (rf_ty_index false).
  - intros (M & Ok) F rest rest' H. destruct (IH Ok F rest rest' H) as [I1 I2]. destruct (decide (c = $"chan")) as [-> |Nm].
    + rewrite !now_lit by reflexivity. rewrite bool_decide_eq_true_2 by done. split; [|intros H'; specialize (I2 H')]; (apply pl_lit; [reflexivity|]); by apply rf_space.
    + rewrite bool_decide_eq_false_2 by done. destruct M as [M|[_ M]]; [done|]. split; [apply rf_word; [rewrite M; left|]; by apply rf_space|]. intros H'. apply rf_first; [done|]. by apply rf_space.
  - intros W _ rest rest' H. destruct (decide (w ∈ [$"interface"; $"struct"])) as [E|Nm].
    + rewrite !now_empty by done. split; [|intros H']; (apply rf_empty; [done|]); (apply pl_lit; [reflexivity|]); (apply pl_lit; [reflexivity|done]).
    + destruct W as [W|[_ W]]; [done|]. split; [apply rf_word; [rewrite W; left|]|intros H'; apply rf_first; [done|]]; (apply pl_lit; [reflexivity|]); (apply pl_lit; [reflexivity|done]).
  - intros (Sy & Ok & _) F rest rest' H. destruct (IH Ok F rest rest' H) as [I1 I2]. rewrite !now_symbol by done. split; [by apply rf_symbol|]. intros H'. apply rf_symbol; [done|]. by apply I2.
Qed.
Lemma receiver_ok o t : ps_ok (PCons o t PNil) -> no_func t ->
  parens KMethodReceiverName KMethodReceiverType (in_parens (ps_out source (PCons o t PNil))) (in_parens (ps_out receiver_pen (PCons o t PNil))).
Proof.
  cbn [ps_ok ps_out]. intros (Ho & Ok & _) Ti. rewrite source_out, !app_nil_r. unfold in_parens. rewrite lx_po, lx_pc. apply pr_intro, pm_one.
  destruct (calm_refines KMethodReceiverName KMethodReceiverType t Ok Ti [] [] (rf_nil _ _ _ _)) as [R1 R2]. specialize (R2 (rf_nil _ _ _ _)). rewrite !app_nil_r in R1, R2.
  apply (one_param KMethodReceiverName KMethodReceiverType false o t []); [constructor|done|done|done|done].
Qed.
Lemma receiver_no_func o t : ps_ok (PCons o t PNil) -> no_func t -> KFunc ∉ map snd (in_parens (ps_out source (PCons o t PNil))).
Proof.
  cbn [ps_ok ps_out]. intros (Ho & Ok & _) Ti. rewrite source_out, app_nil_r. unfold in_parens. cbn [map snd lx]. rewrite !map_app. intros H.
  apply elem_of_cons in H as [H|H]; [revert H; vm_compute; discriminate|]. rewrite !elem_of_app in H. destruct H as [[H|H]|H].
  - destruct o as [n|]; cbn [map] in H; [|by apply elem_of_nil in H]. destruct Ho as [[_ K]| ->]; [|revert H; knot]. cbn [p_name source lx snd] in H. rewrite K in H. revert H. knot.
  - exact (ki_no calm_ks [KFunc] _ (proj1 calm_kinds_all t Ok Ti) eq_refl _ H ltac:(left)).
  - revert H. knot.
Qed.

(** ** Signatures *)
Lemma joint_word acc : acc <> [] -> kinds_in joint_ks acc -> word acc.
Proof.
  intros Ne Ki. split; [done|]. split.
  - by apply (ki_no joint_ks).
  - intros k Hk. assert (H : k ∈ map snd acc) by (destruct acc as [|a acc]; [done|]; injection Hk as <-; left).
    assert (N : k ∉ [KParenL; KFunc]) by (revert H; by apply (ki_no joint_ks)). rewrite !elem_of_cons in N. tauto.
Qed.
(** The tokens [acc] of the current word have been read. *)
Definition jo (acc xs : list lexeme) : Prop :=
  forall s, results ((s, KSpace) :: acc ++ xs) ((s, KSpace) :: joined (concat (map fst acc)) xs).
Definition filled (acc : list lexeme) : Prop := acc <> [] /\ kinds_in joint_ks acc /\ concat (map fst acc) <> [].
Lemma filled_piece acc : filled acc -> piece (concat (map fst acc)) = [merged acc].
Proof. intros (_ & _ & Ne). unfold merged. by destruct (concat (map fst acc)). Qed.
Lemma filled_snoc acc w : kinds_in joint_ks acc -> kind_new w ∈ joint_ks -> w <> [] -> filled (acc ++ [lx w]).
Proof.
  intros Ki K Ne. split; [by destruct acc|]. split; [apply ki_app; [done|]; constructor; [done|constructor]|]. rewrite map_app, concat_app. cbn [map concat lx fst]. rewrite app_nil_r.
  intros E. by apply app_eq_nil in E as [_ E].
Qed.
Lemma jo_tok acc w xs : kind_new w ∈ joint_ks -> jo (acc ++ [lx w]) xs -> jo acc (lx w :: xs).
Proof.
  intros K H s. specialize (H s). rewrite <- app_assoc in H. cbn [app] in H. rewrite map_app, concat_app in H. cbn [map concat lx fst] in H. rewrite app_nil_r in H.
  change (joined (concat (map fst acc)) (lx w :: xs)) with (if bool_decide (w ∈ [$" "; $"{"; $"}"]) then piece (concat (map fst acc)) ++ lx w :: joined [] xs else joined (concat (map fst acc) ++ w) xs).
  rewrite bool_decide_eq_false_2; [exact H|]. intros E. clear H. assert (F : Forall (fun w => kind_new w ∉ joint_ks) [$" "; $"{"; $"}"]) by knot. rewrite Forall_forall in F. by apply (F w E).
Qed.
Lemma joined_stop w t xs : t ∈ [$" "; $"{"; $"}"] -> joined w (lx t :: xs) = piece w ++ lx t :: joined [] xs.
Proof.
  intros H. change (joined w (lx t :: xs)) with (if bool_decide (t ∈ [$" "; $"{"; $"}"]) then piece w ++ lx t :: joined [] xs else joined (w ++ t) xs).
  by rewrite bool_decide_eq_true_2.
Qed.
Lemma jo_end acc : filled acc -> jo acc [].
Proof.
  intros F s. cbn [joined]. rewrite (filled_piece acc F). destruct F as (Ne & Ki & _). apply (rs_word s acc [] []); [by apply joint_word|constructor].
Qed.
Lemma jo_space acc xs : filled acc -> jo [] xs -> jo acc (lx $" " :: xs).
Proof.
  intros F H s. rewrite joined_stop by knot. rewrite (filled_piece acc F). destruct F as (Ne & Ki & _). cbn [app].
  apply rs_word; [by apply joint_word|]. lxs. apply H.
Qed.
Lemma jo_braces acc : filled acc -> jo acc [lx $"{"; lx $"}"].
Proof.
  intros F s. rewrite !joined_stop by knot. rewrite (filled_piece acc F). destruct F as (Ne & Ki & _). cbn [app piece joined]. lxs.
  apply (rs_brace s acc _ [] _ [] []); [by apply joint_word|constructor|constructor].
Qed.
Lemma jo_lit w acc xs : bool_decide (kind_new w ∈ joint_ks /\ w <> []) = true -> (forall acc, filled acc -> jo acc xs) -> kinds_in joint_ks acc -> jo acc (lx w :: xs).
Proof. intros E H Ki. apply bool_decide_eq_true in E as [E1 E2]. apply jo_tok; [done|]. apply H. by apply filled_snoc. Qed.
Lemma jo_plain w acc xs : plain_word w -> kind_new w ∈ [KRaw; KBasic; KNumber; KSymbol] -> (forall acc, filled acc -> jo acc xs) -> kinds_in joint_ks acc -> jo acc (lx w :: xs).
Proof.
  intros W K H Ki. assert (Ks : kind_new w ∈ joint_ks).
  { assert (F : Forall (fun k => k ∈ joint_ks) [KRaw; KBasic; KNumber; KSymbol]) by knot. rewrite Forall_forall in F. by apply F. }
  apply jo_tok; [done|]. apply H. apply filled_snoc; [done|done|]. intros ->. by destruct W.
Qed.
(** Types without braces. *)
Lemma flat_jo_all : (forall t, ty_ok t -> flat t -> forall rest, (forall acc, filled acc -> jo acc rest) -> forall acc, kinds_in joint_ks acc -> jo acc (ty_out source t ++ rest)) /\
  (forall ps, args_ok ps -> ps_flat ps -> forall rest, (forall acc, filled acc -> jo acc rest) -> forall acc, kinds_in joint_ks acc -> (ps = PNil -> filled acc) -> jo acc (ps_out source ps ++ rest)).
Proof.
  assert (Fi : forall acc, filled acc -> kinds_in joint_ks acc) by (intros acc (_ & H & _); exact H).
  assert (Nil : kinds_in joint_ks []) by constructor.
  apply ty_plist_ind; cbn [ty_ok args_ok flat ps_flat ty_out ps_out source p_type p_index p_name]; change (inside source) with source; try done; cbn [app].
  - intros w [W K] _ rest H acc Ki. apply jo_plain; [done| |done|done]. rewrite !elem_of_cons, elem_of_nil in *. tauto.
  - intros w args IH ([W K] & _ & Ao & _) N rest H acc Ki. apply jo_plain; [done|rewrite K; left| |done]. intros acc1 F1. apply jo_lit; [reflexivity| |by apply Fi]. intros acc2 F2.
    rewrite <- app_assoc. apply IH; [done|done| |by apply Fi|done]. intros acc3 F3. cbn [app]. apply jo_lit; [reflexivity|done|by apply Fi].
  - intros t IH Ok N rest H acc Ki. apply jo_lit; [reflexivity| |done]. intros acc1 F1. apply jo_lit; [reflexivity| |by apply Fi]. intros acc2 F2. apply IH; [done|done|done|by apply Fi].
  - intros n t IH [[W K] Ok] N rest H acc Ki. apply jo_lit; [reflexivity| |done]. intros acc1 F1. apply jo_plain; [done| | |by apply Fi].
    { rewrite !elem_of_cons, elem_of_nil in *. tauto. }
    intros acc2 F2. apply jo_lit; [reflexivity| |by apply Fi]. intros acc3 F3. apply IH; [done|done|done|by apply Fi].
  - intros m k IHk t IH (M & Ok & _ & Ot) [N1 N2] rest H acc Ki.
    assert (X : forall acc, filled acc -> jo acc (lx $"[" :: (ty_out source k ++ lx $"]" :: ty_out source t) ++ rest)).
    { intros acc1 F1. apply jo_lit; [reflexivity| |by apply Fi]. intros acc2 F2. rewrite <- app_assoc. apply IHk; [done|done| |by apply Fi]. intros acc3 F3. cbn [app].
      apply jo_lit; [reflexivity| |by apply Fi]. intros acc4 F4. apply IH; [done|done|done|by apply Fi]. }
    destruct M as [-> |[M K]]; [by apply jo_lit|apply jo_plain; [done|rewrite K; left|done|done]].
  - intros c t IH (M & Ot) N rest H acc Ki.
    assert (X : forall acc, filled acc -> jo acc (lx $" " :: ty_out source t ++ rest)) by (intros acc1 F1; apply jo_space; [done|]; by apply IH).
    destruct M as [-> |[M K]]; [by apply jo_lit|apply jo_plain; [done|rewrite K; left|done|done]].
  - intros s t IH ([W K] & Ot & _) N rest H acc Ki. apply jo_plain; [done|rewrite K; by right; right; right; left| |done]. intros acc1 F1. apply IH; [done|done|done|by apply Fi].
  - intros _ _ rest H acc Ki E. by apply H, E.
  - intros o t IHt rest IHr (-> & Ot & Or) [N1 N2] re H acc Ki _. rewrite source_out. cbn [app]. rewrite <- app_assoc. apply IHt; [done|done| |done]. intros acc1 F1.
    destruct rest as [|o2 t2 r2]; [by apply H|]. cbn [app]. apply jo_lit; [reflexivity| |by apply Fi]. intros acc2 F2. apply jo_space; [done|].
    apply IHr; [done|done|done|done|]. intros E. discriminate E.
Qed.
Lemma tailed_jo t : ty_ok t -> tailed t -> forall acc, kinds_in joint_ks acc -> jo acc (ty_out source t).
Proof.
  assert (Fi : forall acc, filled acc -> kinds_in joint_ks acc) by (intros acc (_ & H & _); exact H).
  assert (Nil : kinds_in joint_ks []) by constructor.
  assert (Fl : forall t, ty_ok t -> flat t -> forall acc, kinds_in joint_ks acc -> jo acc (ty_out source t)).
  { intros t0 Ok F acc Ki. rewrite <- (app_nil_r (ty_out source t0)). apply flat_jo_all; [done|done| |done]. by apply jo_end. }
  induction t as [w|w args|t IH|n t IH|m k _ t IH|c t IH|w|s t IH|ps|ps r IH]; cbn [tailed].
  - intros Ok _. by apply Fl.
  - intros Ok F. by apply Fl.
  - cbn [ty_ok ty_out]. intros Ok F acc Ki. apply jo_lit; [reflexivity| |done]. intros acc1 F1. apply jo_lit; [reflexivity| |by apply Fi]. intros acc2 F2. apply IH; [done|done|by apply Fi].
  - cbn [ty_ok ty_out source p_index]. intros [[W K] Ok] F acc Ki. apply jo_lit; [reflexivity| |done]. intros acc1 F1. apply jo_plain; [done| | |by apply Fi].
    { rewrite !elem_of_cons, elem_of_nil in *. tauto. }
    intros acc2 F2. apply jo_lit; [reflexivity| |by apply Fi]. intros acc3 F3. apply IH; [done|done|by apply Fi].
  - cbn [ty_ok ty_out source p_type]. change (inside source) with source. intros (M & Ok & _ & Ot) [N1 N2] acc Ki.
    assert (X : forall acc, filled acc -> jo acc (lx $"[" :: ty_out source k ++ lx $"]" :: ty_out source t)).
    { intros acc1 F1. apply jo_lit; [reflexivity| |by apply Fi]. intros acc2 F2. apply flat_jo_all; [done|done| |by apply Fi]. intros acc3 F3.
      apply jo_lit; [reflexivity| |by apply Fi]. intros acc4 F4. apply IH; [done|done|by apply Fi]. }
    destruct M as [-> |[M K]]; [by apply jo_lit|apply jo_plain; [done|rewrite K; left|done|done]].
  - cbn [ty_ok ty_out source p_type]. intros (M & Ot) F acc Ki.
    assert (X : forall acc, filled acc -> jo acc (lx $" " :: ty_out source t)) by (intros acc1 F1; apply jo_space; [done|]; by apply IH).
    destruct M as [-> |[M K]]; [by apply jo_lit|apply jo_plain; [done|rewrite K; left|done|done]].
  - cbn [ty_ok ty_out source p_type]. intros W _ acc Ki.
    assert (X : forall acc, filled acc -> jo acc [lx $"{"; lx $"}"]) by (intros acc1 F1; by apply jo_braces).
    destruct W as [W|[M K]]; [|apply jo_plain; [done|rewrite K; left|done|done]]. rewrite !elem_of_cons, elem_of_nil in W. destruct W as [-> |[-> |[]]]; by apply jo_lit.
  - cbn [ty_ok ty_out source p_type]. intros ([W K] & Ot & _) F acc Ki. apply jo_plain; [done|rewrite K; by right; right; right; left| |done]. intros acc1 F1. apply IH; [done|done|by apply Fi].
  - intros _ [].
  - intros _ [].
Qed.
Lemma func_res_ok ps xs ys : ps_ok ps -> results xs ys -> results (lx $" " :: lx $"func" :: lx $"(" :: ps_out source ps ++ lx $")" :: xs) (lx $" " :: lx $"func" :: lx $"(" :: ps_out param_pen ps ++ lx $")" :: ys).
Proof. intros P H. lxs. apply rs_func; [|done]. by apply (params_ok false). Qed.
Lemma tailed_ends t : tailed t -> ~ ends_func t.
Proof. induction t as [w|w args|t IH|n t IH|m k _ t IH|c t IH|w|s t IH|ps|ps r IH]; cbn [tailed ends_func]; try (intros H; exact (IH H)); try (by intros _ []); try (by intros []). intros [_ T]. by apply IH. Qed.
Lemma single_ok t : ty_ok t -> res_ty t -> results (lx $" " :: ty_out source t) (lx $" " :: res_type t).
Proof.
  assert (Nil : kinds_in joint_ks []) by constructor.
  assert (Ta : forall t, ty_ok t -> tailed t -> results (lx $" " :: ty_out source t) (lx $" " :: joined [] (ty_out source t))) by (intros t0 Ok T; lxs; exact (tailed_jo t0 Ok T [] Nil _)).
  induction t as [w|w args|t IH|n t IH|m k _ t IH|c t IH|w|s t IH|ps|ps r IH]; try (intros Ok T; by apply Ta).
  - cbn [ty_ok res_ty]. intros (M & Ot) R. cbn [ty_out source p_type res_type]. specialize (IH Ot R). clear Ta.
    assert (Wc : word [lx c]).
    { apply joint_word; [discriminate|]. apply Forall_singleton. destruct M as [-> |[_ K]]; [knot|]. cbn [lx snd]. rewrite K. knot. }
    change (lx c :: lx $" " :: ty_out source t) with ([lx c] ++ lx $" " :: ty_out source t). rewrite (lx_sp) at 1 3.
    assert (E : (c, KParamType) = merged [lx c]) by (unfold merged; cbn [map concat lx fst]; by rewrite app_nil_r). rewrite E. by apply rs_word.
  - cbn [ty_ok res_ty res_type ty_out]. intros P _. apply func_res_ok; [done|constructor].
  - cbn [ty_ok res_ty res_type ty_out]. intros [P Or] R. unfold in_parens. cbn [app]. rewrite <- app_assoc. cbn [app]. apply func_res_ok; [done|]. by apply IH.
Qed.
Lemma several_ok rs xs ys : ps_ok rs -> results xs ys -> results (several source rs ++ xs) (several param_pen rs ++ ys).
Proof.
  intros P H. destruct rs as [|o t r]; [done|]. unfold several. cbn [app]. lxs. apply rs_list; [by apply parens_ok|done].
Qed.
Lemma ended_ok t rs : ty_ok t -> res_ty t -> ends_func t -> ps_ok rs -> results (lx $" " :: ty_out source t ++ several source rs) (lx $" " :: res_type t ++ several param_pen rs).
Proof.
  intros Ok R E P. assert (X : results (several source rs) (several param_pen rs)).
  { rewrite <- (app_nil_r (several source rs)), <- (app_nil_r (several param_pen rs)). apply several_ok; [done|constructor]. }
  revert Ok R E. induction t as [w|w args|t IH|n t IH|m k _ t IH|c t IH|w|s t IH|ps|ps r IH]; cbn [ty_ok res_ty ends_func]; try (by intros ? ? []).
  - intros Ok R E. by destruct (tailed_ends (TSlice t) R).
  - intros Ok R E. by destruct (tailed_ends (TArray n t) R).
  - intros Ok R E. by destruct (tailed_ends (TMap m k t) R).
  - intros (M & Ot) R E. cbn [ty_out source p_type res_type]. specialize (IH Ot R E).
    assert (Wc : word [lx c]).
    { apply joint_word; [discriminate|]. apply Forall_singleton. destruct M as [-> |[_ K]]; [knot|]. cbn [lx snd]. rewrite K. knot. }
    change ((lx c :: lx $" " :: ty_out source t) ++ several source rs) with ([lx c] ++ lx $" " :: ty_out source t ++ several source rs). cbn [app]. rewrite (lx_sp) at 1 3.
    assert (Em : (c, KParamType) = merged [lx c]) by (unfold merged; cbn [map concat lx fst]; by rewrite app_nil_r). rewrite Em. by apply (rs_word _ [lx c]).
  - intros Ok R E. by destruct (tailed_ends (TPrefix s t) R).
  - intros Po _ _. cbn [res_type ty_out]. repeat (rewrite <- ?app_assoc; cbn [app]). by apply func_res_ok.
  - intros [Po Or] R E. cbn [res_type ty_out]. unfold in_parens. repeat (rewrite <- ?app_assoc; cbn [app]). apply func_res_ok; [done|]. by apply IH.
Qed.
Lemma results_ok r : res_ok r -> results (res_src r) (res_after r).
Proof.
  destruct r as [|t|t rs|ps]; cbn [res_ok res_src res_after].
  - constructor.
  - intros [Ok Ti]. by apply single_ok.
  - intros (Ok & Ti & E & P). by apply ended_ok.
  - intros P. lxs. rewrite <- (app_nil_r (group_out source ps)), <- (app_nil_r (group_out param_pen ps)). apply rs_list; [apply group_ok_parens; apply P|constructor].
Qed.
Lemma tps_squares tps : tps_ok tps -> squares (map snd (map lx tps)).
Proof. intros P. apply kmatched_squares. eapply (inline_kmatched (ml := true)). by apply tps_line. Qed.
Lemma signature_of name tps q q' u u' : ident name -> tps_ok tps -> parens KParamName KParamType q q' -> outcome u u' ->
  signature (lx name :: tps_out tps ++ q ++ u) ((name, KFuncName) :: tps_out tps ++ q' ++ u').
Proof.
  intros [_ K] T Pp Pr. rewrite lx_raw by done. pose proof (tps_squares tps T) as Sq.
  destruct tps as [|t tps]; [exact (sg_plain name _ _ _ _ Pp Pr)|]. unfold tps_out. cbn [app]. rewrite <- !app_assoc. cbn [app]. lxs. exact (sg_generic name _ _ _ _ _ _ _ Sq Pp Pr).
Qed.
(** A signature and what follows it. *)
Lemma signature_ok name tps ps r X : ident name -> tps_ok tps -> group_ok ps -> res_ok r -> sig_end X -> exists ts ts' e,
  lx name :: tps_out tps ++ group_out source ps ++ res_src r ++ X = ts ++ e /\ (name, KFuncName) :: tps_out tps ++ group_out param_pen ps ++ func_after ps r ++ X = ts' ++ e /\
  signature ts ts' /\ sig_end e.
Proof.
  intros N T P R HX. destruct (match ps with CallRows _ _ _ _ _ _ _ => true | _ => false end) eqn:E.
  - destruct ps as [|?|?|n rows o w fs rs note]; try discriminate E. destruct (group_cut n rows o w fs rs note P) as (q & q' & u & u' & e & tl & E1 & E2 & Pp & Po & Le).
    rewrite E1, E2. cbn [func_after]. exists (lx name :: tps_out tps ++ q ++ u), ((name, KFuncName) :: tps_out tps ++ q' ++ u'), (e ++ tl ++ res_src r ++ X).
    split; [repeat (rewrite <- ?app_assoc; cbn [app]); done|]. split; [repeat (rewrite <- ?app_assoc; cbn [app]); done|]. split; [by apply signature_of|by apply se_line].
  - assert (In : in_line ps) by (by destruct ps). assert (Ef : func_after ps r = res_after r) by (by destruct ps). rewrite Ef.
    destruct (group_split ps P In) as (q & q' & u & u' & -> & -> & Pp & Po & _). pose proof (Po _ _ (results_ok r R)) as Pr.
    exists (lx name :: tps_out tps ++ q ++ u ++ res_src r), ((name, KFuncName) :: tps_out tps ++ q' ++ u' ++ res_after r), X.
    split; [repeat (rewrite <- ?app_assoc; cbn [app]); done|]. split; [repeat (rewrite <- ?app_assoc; cbn [app]); done|]. split; [by apply signature_of|done].
Qed.
Lemma note_end note : line_end (note_out note).
Proof. destruct note as [c|]; cbn [note_out]; unfold comment; lxs; constructor. Qed.
Lemma code_kmatched code : code_ok [lx $"{"] [lx $"}"] code -> kmatched (map snd code).
Proof.
  intros (M & Sp & _). apply matched_kinds; [done|]. apply spelled_faithful in Sp. cbn [app] in Sp. apply Forall_cons in Sp as [_ Sp]. by apply Forall_app in Sp as [Sp _].
Qed.
Lemma body_end body note k : body_ok body -> sig_end (body_out body ++ note_out note ++ blank k).
Proof.
  intros B. pose proof (note_end note) as N. destruct body as [code|]; cbn [body_out body_ok app] in *; [|by apply se_line].
  rewrite <- app_assoc. cbn [app]. lxs. apply se_body; [|done]. apply kmatched_curly. by apply code_kmatched.
Qed.

(** ** A method is not a function called at once *)
Lemma occ_cons x k ks : occurrences x (k :: ks) = (if kind_eqb k x then 1 else 0) + occurrences x ks.
Proof. rewrite <- occurrences_one. by rewrite <- occurrences_app. Qed.
Definition sorts : list (kind * kind) := [(KParenL, KParenR); (KSquareL, KSquareR); (KCurlyL, KCurlyR)].
Lemma app_split {A} (us vs xs ys : list A) x y : us ++ x :: vs = xs ++ y :: ys ->
  (exists zs, xs = us ++ x :: zs) \/ (us = xs /\ x = y /\ vs = ys) \/ (exists zs, us = xs ++ y :: zs /\ ys = zs ++ x :: vs).
Proof.
  revert xs. induction us as [|u us IH]; intros [|x0 xs] E; cbn [app] in *; injection E as E1 E2; subst.
  - right. left. done.
  - left. by exists xs.
  - right. right. by exists us.
  - destruct (IH _ E2) as [[zs ->]|[(-> & -> & ->)|[zs [-> ->]]]]; [left; by exists zs|right; by left|right; right; by exists zs].
Qed.
Lemma sort_eqb o c l r : (o, c) ∈ sorts -> (l, r) ∈ sorts ->
  (kind_eqb o l = true /\ kind_eqb c r = true /\ kind_eqb o r = false /\ kind_eqb c l = false) \/
  (kind_eqb o l = false /\ kind_eqb o r = false /\ kind_eqb c l = false /\ kind_eqb c r = false).
Proof.
  intros H1 H2. assert (F : Forall (fun p : kind * kind => Forall (fun q : kind * kind => 
    (kind_eqb (fst p) (fst q) = true /\ kind_eqb (snd p) (snd q) = true /\ kind_eqb (fst p) (snd q) = false /\ kind_eqb (snd p) (fst q) = false) \/
    (kind_eqb (fst p) (fst q) = false /\ kind_eqb (fst p) (snd q) = false /\ kind_eqb (snd p) (fst q) = false /\ kind_eqb (snd p) (snd q) = false)) sorts) sorts) by knot.
  rewrite Forall_forall in F. specialize (F _ H1). rewrite Forall_forall in F. apply (F _ H2).
Qed.
Lemma other_eqb k l r : k ∉ bracket_kinds -> (l, r) ∈ sorts -> kind_eqb k l = false /\ kind_eqb k r = false.
Proof.
  intros N H. assert (F : Forall (fun p : kind * kind => fst p ∈ bracket_kinds /\ snd p ∈ bracket_kinds) sorts) by knot.
  rewrite Forall_forall in F. destruct (F _ H) as [F1 F2]. cbn in F1, F2. unfold kind_eqb. split; apply bool_decide_eq_false_2; intros ->; done.
Qed.
Lemma kmatched_balance ks l r : kmatched ks -> (l, r) ∈ sorts -> occurrences l ks = occurrences r ks.
Proof.
  intros H P. induction H as [|k ks N H IH|o c ks ks' Q H IH H' IH']; [done|..].
  - destruct (other_eqb k l r N P) as [E1 E2]. rewrite !occ_cons, E1, E2. lia.
  - rewrite !occ_cons, !occurrences_app, !occ_cons. destruct (sort_eqb o c l r Q P) as [(E1 & E2 & E3 & E4)|(E1 & E2 & E3 & E4)]; rewrite ?E1, ?E2, ?E3, ?E4; lia.
Qed.
Lemma kmatched_prefix ks l r : kmatched ks -> (l, r) ∈ sorts -> forall us vs, ks = us ++ vs -> occurrences r us <= occurrences l us.
Proof.
  intros H P. induction H as [|k ks N H IH|o c ks ks' Q H IH H' IH']; intros us vs E.
  - symmetry in E. apply app_eq_nil in E as [-> _]. done.
  - destruct us as [|u us]; [done|]. injection E as <- E. destruct (other_eqb k l r N P) as [E1 E2]. rewrite !occ_cons, E1, E2. specialize (IH us vs E). lia.
  - destruct us as [|u us]; [done|]. injection E as <- E. rewrite !occ_cons.
    assert (S : (exists zs, ks = us ++ zs) \/ exists zs, us = ks ++ c :: zs /\ ks' = zs ++ vs).
    { clear -E. revert us E. induction ks as [|k ks IH]; intros [|u us] E; cbn [app] in E.
      - left. by exists [].
      - right. injection E as <- E. by exists us.
      - left. by exists (k :: ks).
      - injection E as <- E. destruct (IH _ E) as [[zs ->]|[zs [-> ->]]]; [left; by exists zs|right; by exists zs]. }
    destruct S as [[zs Es]|[zs [-> Es]]].
    + specialize (IH us zs Es). destruct (sort_eqb o c l r Q P) as [(E1 & E2 & E3 & E4)|(E1 & E2 & E3 & E4)]; rewrite ?E1, ?E2, ?E3, ?E4; lia.
    + specialize (IH' zs vs Es). rewrite !occurrences_app, !occ_cons. pose proof (kmatched_balance ks l r H P).
      destruct (sort_eqb o c l r Q P) as [(E1 & E2 & E3 & E4)|(E1 & E2 & E3 & E4)]; rewrite ?E1, ?E2, ?E3, ?E4; lia.
Qed.
Lemma plain_kind w : plain_word w -> kind_new w ∉ bracket_kinds.
Proof. intros W H. apply kind_new_bracket in H. by apply (plain_not_bracket w). Qed.
Lemma balance_sort ks l r : balanced ks -> (l, r) ∈ sorts -> occurrences l ks = occurrences r ks.
Proof. intros (B1 & B2 & B3) P. unfold sorts in P. rewrite !elem_of_cons, elem_of_nil in P. destruct P as [E|[E|[E|[]]]]; injection E as -> ->; done. Qed.
Lemma cons_split {A} (k : A) ks us x vs : k :: ks = us ++ x :: vs -> (us = [] /\ k = x) \/ exists us', us = k :: us' /\ ks = us' ++ x :: vs.
Proof. destruct us as [|u us]; cbn [app]; intros [= -> ->]; [by left|right; by exists us]. Qed.
Lemma not_curly k : k ∉ bracket_kinds -> k <> KCurlyR. Proof. intros N ->. apply N. knot. Qed.
(** Braces stand in other brackets. *)
Lemma inline_inside c xs : lines true c xs -> c = false -> forall us vs, map snd xs = us ++ KCurlyR :: vs -> exists l r, (l, r) ∈ sorts /\ l <> KCurlyL /\ r <> KCurlyR /\ occurrences r us < occurrences l us.
Proof.
  induction 1 as [c|c x ts Hx H IH|c w ts Hw Hs H IH|c o e xs ts Hp Hc Hx IHx H IH|c ts Hl H IH|c t ts Hl Ht H IH]; intros -> us vs E; cbn [map] in E.
  - by destruct us.
  - assert (N : kind_new [x] ∉ bracket_kinds).
    { revert Hx. rewrite !elem_of_cons, elem_of_nil. intros [-> |[-> |[-> |[]]]]; knot. }
    apply cons_split in E as [[_ E0]|(us' & -> & E)]; [exfalso; exact (not_curly _ N E0)|]. rename us' into us.
    destruct (IH eq_refl us vs E) as (l & r & P & N1 & N2 & L). exists l, r. split; [exact P|]. split; [exact N1|]. split; [exact N2|].
    destruct (other_eqb _ l r N P) as [E1 E2]. rewrite !occ_cons. change (snd (lx [x])) with (kind_new [x]). rewrite E1, E2. clear -L. lia.
  - pose proof (plain_kind w Hw) as N. apply cons_split in E as [[_ E0]|(us' & -> & E)]; [exfalso; exact (not_curly _ N E0)|]. rename us' into us.
    destruct (IH eq_refl us vs E) as (l & r & P & N1 & N2 & L). exists l, r. split; [exact P|]. split; [exact N1|]. split; [exact N2|].
    destruct (other_eqb _ l r N P) as [E1 E2]. rewrite !occ_cons. change (snd (lx w)) with (kind_new w). rewrite E1, E2. clear -L. lia.
  - rewrite map_app in E. cbn [map lx snd] in E.
    assert (Q : (kind_new [o], kind_new [e]) ∈ sorts /\ kind_new [o] <> KCurlyR /\ kind_new [e] <> KCurlyR /\ kind_new [o] <> KCurlyL).
    { unfold bracket_pairs in Hp. rewrite !elem_of_cons, elem_of_nil in Hp. destruct Hp as [Ep|[Ep|[Ep|[]]]]; injection Ep as -> ->; [..|specialize (Hc eq_refl); discriminate]; (split; [knot|]); (split; [knot|]); (split; [knot|]); knot. }
    destruct Q as (Q & N1 & N2 & N3). pose proof (inline_kmatched _ _ Hx) as Kx.
    apply cons_split in E as [[_ E0]|(us' & -> & E)]; [exfalso; exact (N1 E0)|]. rename us' into us.
    symmetry in E. apply app_split in E as [[zs Ez]|[(Ez & Eb & _)|[zs [Ez Eb]]]].
    + exists (kind_new [o]), (kind_new [e]). split; [exact Q|]. split; [exact N3|]. split; [exact N2|]. rewrite !occ_cons.
      pose proof (kmatched_prefix _ _ _ Kx Q us _ Ez). destruct (sort_eqb _ _ _ _ Q Q) as [(E1 & E2 & E3 & E4)|(E1 & _)]; [rewrite ?E1, ?E2, ?E3, ?E4; lia|].
      unfold kind_eqb in E1. by rewrite bool_decide_eq_true_2 in E1.
    + exfalso. exact (N2 (eq_sym Eb)).
    + destruct (IH eq_refl zs vs Eb) as (l & r & P & M1 & M2 & L). exists l, r. split; [exact P|]. split; [exact M1|]. split; [exact M2|].
      rewrite Ez, !occ_cons, !occurrences_app, !occ_cons. pose proof (kmatched_balance _ l r Kx P).
      destruct (sort_eqb _ _ _ _ Q P) as [(E1 & E2 & E3 & E4)|(E1 & E2 & E3 & E4)]; rewrite ?E1, ?E2, ?E3, ?E4; lia.
  - assert (N : KNewLine ∉ bracket_kinds) by knot. change (snd (lx [c_nl])) with KNewLine in E.
    apply cons_split in E as [[_ E0]|(us' & -> & E)]; [exfalso; exact (not_curly _ N E0)|]. rename us' into us.
    destruct (IH eq_refl us vs E) as (l & r & P & N1 & N2 & L). exists l, r. split; [exact P|]. split; [exact N1|]. split; [exact N2|].
    destruct (other_eqb _ l r N P) as [E1 E2]. rewrite !occ_cons, E1, E2. clear -L. lia.
  - assert (N : KNewLine ∉ bracket_kinds /\ KComment ∉ bracket_kinds) by (split; knot). destruct N as [N N']. change (snd (lx [c_nl])) with KNewLine in E. change (snd (comment t)) with KComment in E.
    apply cons_split in E as [[_ E0]|(us' & -> & E)]; [exfalso; exact (not_curly _ N' E0)|]. apply cons_split in E as [[_ E0]|(us & -> & E)]; [exfalso; exact (not_curly _ N E0)|].
    destruct (IH eq_refl us vs E) as (l & r & P & N1 & N2 & L). exists l, r. split; [exact P|]. split; [exact N1|]. split; [exact N2|].
    destruct (other_eqb _ l r N P) as [E1 E2]. destruct (other_eqb _ l r N' P) as [E3 E4]. rewrite !occ_cons, E1, E2, E3, E4. clear -L. lia.
Qed.
Lemma app_cut {A} (us vs xs ys : list A) y : us ++ vs = xs ++ y :: ys -> (exists zs, us = xs ++ y :: zs) \/ exists zs, vs = zs ++ y :: ys.
Proof.
  revert xs. induction us as [|u us IH]; intros xs E; cbn [app] in *; [right; by exists xs|].
  destruct xs as [|x xs]; cbn [app] in E; injection E as E1 E2; subst; [left; by exists us|]. destruct (IH _ E2) as [[zs ->]|[zs ->]]; [left; by exists zs|right; by exists zs].
Qed.
Lemma not_called_at_once (hd tl body : list lexeme) k0 ts : lines true false hd -> kmatched (map snd (hd ++ tl)) -> KParenL ∉ map snd tl -> kmatched (map snd body) -> k0 <> KParenL ->
  ~ called_at_once (map snd (hd ++ tl) ++ KCurlyL :: map snd body ++ KCurlyR :: k0 :: ts).
Proof.
  intros Hh Kh Nt Hb N0 (xs & ys & E & B & First).
  assert (Ps : (KParenL, KParenR) ∈ sorts /\ (KSquareL, KSquareR) ∈ sorts /\ (KCurlyL, KCurlyR) ∈ sorts) by (split; [knot|]; split; knot).
  destruct Ps as (P1 & P2 & P3). pose proof E as E0. symmetry in E. apply app_split in E as [[zs Ez]|[(_ & Eb & _)|[zs [-> E]]]].
  - rewrite map_app in Ez. pose proof Ez as Ez0. apply app_cut in Ez as [[zs' Ex]|[us Eu]].
    + destruct (inline_inside _ _ Hh eq_refl xs _ Ex) as (l & r & P & N1 & N2 & L).
      pose proof (balance_sort _ l r B P) as X. rewrite !occurrences_app, !occurrences_one in X.
      assert (E1 : kind_eqb KCurlyR r = false) by (unfold kind_eqb; apply bool_decide_eq_false_2; congruence). rewrite E1 in X. lia.
    + rewrite map_app, Ez0, <- app_assoc in E0. apply app_inv_head in E0. cbn [app] in E0. apply (f_equal tail) in E0. cbn [tail] in E0.
      destruct zs as [|z zs]; [apply (f_equal head) in E0; cbn [head app] in E0; revert E0; knot|]. apply Nt. rewrite Eu. apply (f_equal head) in E0. cbn [head app] in E0.
      assert (z = KParenL) as -> by congruence. apply elem_of_app. right. right. left.
  - discriminate.
  - symmetry in E. apply app_split in E as [[zs2 Ez]|[(_ & _ & Eb)|[zs2 [-> Eb]]]].
    + pose proof (balance_sort _ _ _ B P3) as X. 
      rewrite !occurrences_app, !occ_cons in X. change (occurrences KCurlyL []) with 0 in X. change (occurrences KCurlyR []) with 0 in X.
      assert (Ez' : map snd body = (zs ++ [KCurlyR]) ++ zs2) by (by rewrite <- app_assoc).
      pose proof (kmatched_prefix _ _ _ Hb P3 _ _ Ez') as L. rewrite !occurrences_app, !occurrences_one in L. pose proof (kmatched_balance _ _ _ Kh P3).
      change (kind_eqb KCurlyR KCurlyL) with false in *. change (kind_eqb KCurlyR KCurlyR) with true in *. change (kind_eqb KCurlyL KCurlyL) with true in *. change (kind_eqb KCurlyL KCurlyR) with false in *. cbv iota in X, L. lia.
    + apply N0. by injection Eb.
    + apply (First (map snd (hd ++ tl) ++ KCurlyL :: map snd body) KCurlyR zs2); [by rewrite <- app_assoc|by right|].
      assert (Kb : kmatched ((map snd (hd ++ tl) ++ KCurlyL :: map snd body) ++ [KCurlyR])).
      { rewrite <- app_assoc. cbn [app]. assert (Kap : forall us vs, kmatched us -> kmatched vs -> kmatched (us ++ vs)).
        { intros us vs Hu Hv. induction Hu as [|k ks N H IH|o c ks ks' Q H IH H' IH']; cbn [app]; [done|by apply km_other|]. rewrite <- app_assoc. cbn [app]. by apply km_pair. }
        apply Kap; [done|]. apply km_pair; [done|done|constructor]. }
      split; [|split]; by apply kmatched_balance.
Qed.

Lemma not_called_without_body (hd tl : list lexeme) ts : lines true false hd -> KParenL ∉ map snd tl -> KCurlyR ∉ ts -> head ts <> Some KParenL ->
  ~ called_at_once (map snd (hd ++ tl) ++ ts).
Proof.
  intros Hh Nt N1 N2 (xs & ys & E & B & _). rewrite map_app, <- app_assoc in E.
  assert (Tl : forall zs, map snd tl ++ ts = zs ++ KCurlyR :: KParenL :: ys -> False).
  { intros zs Ez. pose proof Ez as Ez0. apply app_cut in Ez as [[us Eu]|[us Eu]].
    - rewrite Eu in Ez0. rewrite <- app_assoc in Ez0. apply app_inv_head in Ez0. cbn [app] in Ez0. apply (f_equal tail) in Ez0. cbn [tail] in Ez0.
      destruct us as [|u us]; [apply N2; cbn [app] in Ez0; by rewrite Ez0|]. apply Nt. rewrite Eu. apply (f_equal head) in Ez0. cbn [head app] in Ez0.
      assert (u = KParenL) as -> by congruence. apply elem_of_app. right. right. left.
    - apply N1. rewrite Eu. apply elem_of_app. right. left. }
  pose proof E as E0. apply app_cut in E as [[zs' Ex]|[us Eu]]; [|by eapply Tl].
  destruct (inline_inside _ _ Hh eq_refl xs _ Ex) as (l & r & P & M1 & M2 & L).
  pose proof (balance_sort _ l r B P) as X. rewrite !occurrences_app, !occurrences_one in X.
  assert (E1 : kind_eqb KCurlyR r = false) by (unfold kind_eqb; apply bool_decide_eq_false_2; congruence). rewrite E1 in X. lia.
Qed.

(** ** Functions and methods *)
Lemma tailed_kinds t : ty_ok t -> tailed t -> kinds_in calm_ks (ty_out source t).
Proof.
  intros Ok T. apply calm_kinds_all; [done|]. clear Ok. revert T.
  assert (Fl : (forall t, flat t -> no_func t) /\ (forall ps, ps_flat ps -> ps_no_func ps)) by (apply ty_plist_ind; cbn [flat no_func ps_flat ps_no_func]; tauto).
  induction t as [w|w args|t IH|n t IH|m k _ t IH|c t IH|w|s t IH|ps|ps r IH]; cbn [tailed no_func]; try tauto; [apply Fl|]. intros [A B]. split; [by apply Fl|tauto].
Qed.
(** A result type: braces only after the last parenthesis. *)
Lemma single_split t : ty_ok t -> res_ty t -> exists hd tl, ty_out source t = hd ++ tl /\ lines true false hd /\ KParenL ∉ map snd tl.
Proof.
  assert (Ta : forall t, ty_ok t -> tailed t -> exists hd tl, ty_out source t = hd ++ tl /\ lines true false hd /\ KParenL ∉ map snd tl).
  { intros t0 Ok T. exists [], (ty_out source t0). split; [done|]. split; [constructor|]. intros H. by apply (ki_no calm_ks [KParenL] _ (tailed_kinds t0 Ok T) eq_refl _ H), elem_of_list_singleton. }
  assert (Nn : KParenL ∉ map snd (@nil lexeme)) by apply not_elem_of_nil.
  induction t as [w|w args|t IH|n t IH|m k _ t IH|c t IH|w|s t IH|ps|ps r IH]; try (intros Ok T; by apply Ta); clear Ta.
  - cbn [ty_ok res_ty]. intros (M & Ot) R. destruct (IH Ot R) as (hd & tl & E & H & N). exists (lx c :: lx $" " :: hd), tl. cbn [ty_out source p_type app]. rewrite E. split; [done|]. split; [|done].
    apply il_word; [by apply chan_plain|sf|]. by apply il_space.
  - cbn [ty_ok res_ty ty_out]. intros P _. exists (lx $"func" :: lx $"(" :: ps_out source ps ++ [lx $")"]), []. rewrite app_nil_r. split; [done|]. split; [|done].
    apply il_word; [plain_lit|sf|]. apply il_parens; [by apply ty_inline|constructor].
  - cbn [ty_ok res_ty ty_out]. intros [P Or] R. destruct (IH Or R) as (hd & tl & E & H & N). exists (lx $"func" :: lx $"(" :: ps_out source ps ++ lx $")" :: lx $" " :: hd), tl.
    cbn [app]. rewrite <- app_assoc. cbn [app]. rewrite E. split; [done|]. split; [|done]. apply il_word; [plain_lit|sf|]. apply il_parens; [by apply ty_inline|]. by apply il_space.
Qed.
Lemma ended_line t : ty_ok t -> res_ty t -> ends_func t -> lines true false (ty_out source t).
Proof.
  induction t as [w|w args|t IH|n t IH|m k _ t IH|c t IH|w|s t IH|ps|ps r IH]; cbn [ty_ok res_ty ends_func]; try (by intros ? ? []).
  - intros Ok R E. by destruct (tailed_ends (TSlice t) R).
  - intros Ok R E. by destruct (tailed_ends (TArray n t) R).
  - intros Ok R E. by destruct (tailed_ends (TMap m k t) R).
  - intros (M & Ot) R E. cbn [ty_out source p_type]. apply il_word; [by apply chan_plain|sf|]. apply il_space. by apply IH.
  - intros Ok R E. by destruct (tailed_ends (TPrefix s t) R).
  - intros Po _ _. cbn [ty_out]. apply il_word; [plain_lit|sf|]. apply il_parens; [by apply ty_inline|constructor].
  - intros [Po Or] R E. cbn [ty_out]. apply il_word; [plain_lit|sf|]. apply il_parens; [by apply ty_inline|]. apply il_space. by apply IH.
Qed.
Lemma res_split r : res_ok r -> exists hd tl, res_src r = hd ++ tl /\ lines true false hd /\ KParenL ∉ map snd tl.
Proof.
  assert (Nn : KParenL ∉ map snd (@nil lexeme)) by apply not_elem_of_nil.
  destruct r as [|t|t rs|g]; cbn [res_ok res_src].
  - intros _. exists [], []. split; [done|]. split; [constructor|done].
  - intros [Ok R]. destruct (single_split t Ok R) as (hd & tl & E & H & N). exists (lx $" " :: hd), tl. cbn [app]. rewrite E. split; [done|]. split; [by apply il_space|done].
  - intros (Ok & R & E & P). exists (lx $" " :: ty_out source t ++ several source rs), []. rewrite app_nil_r. split; [done|]. split; [|done]. apply il_space.
    assert (X : lines true false (several source rs)) by (rewrite <- (app_nil_r (several source rs)); apply several_inline; [by right|constructor]).
    apply inline_app; [by apply ended_line|done|]. rewrite <- (app_nil_r (several source rs)). by apply sf_several.
  - intros G. exists (lx $" " :: group_out source g), []. rewrite app_nil_r. split; [done|]. split; [|done]. apply il_space. rewrite <- (app_nil_r (group_out source g)). apply group_inline; [by left|apply G|constructor].
Qed.
Lemma func_head_split recv name tps ps r : match recv with Some (o, t) => ps_ok (PCons o t PNil) /\ no_func t | None => True end ->
  ident name -> tps_ok tps -> group_ok ps -> res_ok r -> exists hd tl, lx $"func" :: lx $" " :: func_head recv name tps ps r = hd ++ tl /\ lines true false hd /\ KParenL ∉ map snd tl.
Proof.
  intros R [N _] T P Re. destruct (res_split r Re) as (hd & tl & E & H & Nt). unfold func_head. rewrite E.
  exists (lx $"func" :: lx $" " :: recv_out source recv ++ lx name :: tps_out tps ++ group_out source ps ++ hd), tl.
  split; [repeat (rewrite <- ?app_assoc; cbn [app]); done|]. split; [|done]. apply il_word; [plain_lit|sf|]. apply il_space.
  assert (X : lines true false (lx name :: tps_out tps ++ group_out source ps ++ hd)).
  { apply il_word; [done|apply sf_tps, sf_group|]. apply tps_inline; [done|]. apply group_inline; [by left|done|done]. }
  destruct recv as [[o t]|]; [|done]. unfold recv_out. rewrite <- app_assoc. apply parens_inline; [apply R|]. cbn [app]. by apply il_space.
Qed.
Lemma func_decl_ok recv name tps ps r body note k : decl_ok (DFunc recv name tps ps r body note) ->
  let d := DFunc recv name tps ps r body note in func_decl (map snd (decl_src d ++ blank k)) (decl_src d ++ blank k) (decl_after d ++ blank k).
Proof.
  intros Ok d. pose proof Ok as (Hr & N & T & P & R & _ & B & _). destruct (signature_ok name tps ps r _ N T P R (body_end body note k B)) as (ts & ts' & e & Es1 & Es2 & Sg & He).
  assert (Es : decl_src d ++ blank k = lx $"func" :: lx $" " :: recv_out source recv ++ ts ++ e).
  { rewrite <- Es1. unfold d. cbn [decl_src]. repeat (rewrite <- ?app_assoc; cbn [app]). done. }
  assert (Ea : decl_after d ++ blank k = lx $"func" :: lx $" " :: recv_out receiver_pen recv ++ ts' ++ e).
  { rewrite <- Es2. unfold d. cbn [decl_after]. repeat (rewrite <- ?app_assoc; cbn [app]). done. }
  assert (Nc : ~ called_at_once (map snd (decl_src d ++ blank k))).
  { assert (E : map snd (decl_src d ++ blank k) = map snd (decl_line d) ++ map snd (body_out body) ++ map snd (note_out note) ++ map snd (blank k)).
    { rewrite decl_split. rewrite !map_app. unfold d. cbn [decl_rest]. rewrite map_app, <- !app_assoc. done. }
    rewrite E. destruct (func_head_split recv name tps ps r Hr N T P R) as (hd & tl & Eh & Hh & Nt). unfold d in *. cbn [decl_line] in *.
    pose proof (inline_kmatched (ml := true) _ _ (func_head_inline recv name tps ps r Hr ltac:(by left) N T P R)) as Kh. rewrite Eh in *.
    assert (Sn : exists k0 ks, map snd (note_out note) ++ map snd (blank k) = k0 :: ks /\ k0 <> KParenL /\ KCurlyR ∉ k0 :: ks).
    { assert (Nb : KCurlyR ∉ map snd (blank k)) by (clear; induction k as [|k IH]; cbn [blank repeat map lx snd]; [apply not_elem_of_nil|]; apply not_elem_of_cons; split; [knot|exact IH]).
      destruct note as [c|]; cbn [note_out map app comment snd]; eexists _, _; (split; [reflexivity|]); (split; [knot|]); repeat (apply not_elem_of_cons; split; [knot|]); exact Nb. }
    destruct Sn as (k0 & ks & -> & N1 & N2). destruct body as [code|]; cbn [body_out body_ok map] in *.
    - assert (E2 : (map snd (hd ++ tl) ++ (snd (lx $" ") :: snd (lx $"{") :: map snd (code ++ [lx $"}"])) ++ k0 :: ks) = map snd (hd ++ (tl ++ [lx $" "])) ++ KCurlyL :: map snd code ++ KCurlyR :: k0 :: ks).
      { rewrite !map_app. repeat (rewrite <- ?app_assoc; cbn [app map]). done. }
      rewrite E2. apply not_called_at_once; [done| | |by apply code_kmatched|done].
      + rewrite app_assoc, map_app. clear -Kh. induction Kh as [|k ks N H IH|o c ks ks' Q H IH H' IH']; cbn [app]; [apply km_other; [knot|constructor]|by apply km_other|]. rewrite <- app_assoc. cbn [app]. by apply km_pair.
      + rewrite map_app, not_elem_of_app. split; [done|knot].
    - cbn [app]. apply not_called_without_body; [done|done|done|]. cbn [head]. congruence. }
  revert Nc. generalize (map snd (decl_src d ++ blank k)). intros ks Nc. rewrite Es, Ea. clear Es Ea d Ok.
  destruct recv as [[o t]|].
  - unfold recv_out. rewrite <- (app_assoc (in_parens (ps_out source (PCons o t PNil)))), <- (app_assoc (in_parens (ps_out receiver_pen (PCons o t PNil)))).
    exact (fd_method ks $"func" $" " _ _ $" " _ _ _ Nc (receiver_no_func o t (proj1 Hr) (proj2 Hr)) (receiver_ok o t (proj1 Hr) (proj2 Hr)) Sg He).
  - exact (fd_func ks $"func" $" " _ _ _ Sg He).
Qed.
