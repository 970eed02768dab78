(** C41, C43: any spaces and tabs between the keyword and the name. *)
From Verif Require Import SpecAst ResetSpec P_Pure P_Lex P_Node P_Scope HeaderProofs PrefixProofs P_Ast P_Get.
Definition blank (k : kind) : Prop := k = KSpace \/ k = KTab.
Section gap.
Context (h0 : heap) (ls : list loc) (W0 : SpecNode.wf h0) (C0 : chain h0 ls) (okr : bool).
Notation from := (from ls).
Notation base := (base h0 ls).
Notation N i := (length ls - i).
Notation Kp := (Kp h0 ls).
Notation pre := (pre h0 ls).
Definition passes {X} (sw : loc -> X -> M (act * X)) (x : X) : Prop := forall l s, blank (kind_of (s_heap s) (Some l)) ->
  forall (Q : act * X -> st -> Prop), Q (Cont, x) s -> wp (sw l x) Q s.
Lemma skip_gap {X} skip (sw : loc -> X -> M (act * X)) x ks s (Q : wl X * ptr -> st -> Prop) : passes sw x -> pre ks (s_heap s) -> length ks <= length ls ->
  forall n i fuel, (forall j, i <= j < i + n -> exists k, ks !! j = Some k /\ blank k) -> i + n < length ks -> n < fuel ->
  wp (iterM (fuel - n) (walk_body skip [] sw) (ls !! (i + n)) (mkWl false None x)) Q s ->
  wp (iterM fuel (walk_body skip [] sw) (ls !! i) (mkWl false None x)) Q s.
Proof.
  intros Ps P Ll. induction n as [|n IH]; intros i fuel G L Lf H.
  - by rewrite Nat.add_0_r, Nat.sub_0_r in H.
  - destruct (lookup_lt_is_Some_2 ls i ltac:(lia)) as [l El]. rewrite El. destruct (G i ltac:(lia)) as (k & Ek & Bk).
    apply step_iterM; [lia|]. apply wb_run. apply Ps; [by rewrite (pre_kind h0 ls ks _ i l k P El Ek)|]. cbn [fst snd].
    rewrite (pre_next h0 ls ks _ i l P El) by lia. apply (IH (Datatypes.S i)); [intros j Hj; apply G; lia|lia|lia|].
    replace (Init.Nat.pred fuel - n) with (fuel - Datatypes.S n) by lia. by replace (Datatypes.S i + n) with (i + Datatypes.S n) by lia.
Qed.
End gap.
Lemma passes_type f : passes (ty_sw f []) (false, false).
Proof. intros l s B Q H. unfold ty_sw. apply wp_bind, wp_get_kind. destruct B as [->| ->]; kred; by apply wp_ret. Qed.
Lemma passes_func f hd : passes (fr_sw f hd []) (false, false).
Proof. intros l s B Q H. unfold fr_sw. apply wp_bind, wp_get_kind. cbn [fst snd]. destruct B as [->| ->]; kred; by apply wp_ret. Qed.
Lemma passes_general f : passes (gf_sw f (cset_new [KNewLine]) []) (false, false).
Proof. intros l s B Q H. unfold gf_sw. apply wp_bind, wp_get_kind. destruct B as [->| ->]; kred; by apply wp_ret. Qed.
Section run.
Context (h0 : heap) (ls : list loc) (W0 : SpecNode.wf h0) (C0 : chain h0 ls) (okr : bool).
Context (gk : list kind) (Bg : Forall blank gk) (k0 : kind).
Let ks k := k0 :: gk ++ [k].
Let at_gap k j : 1 <= j < 1 + length gk -> exists k', ks k !! j = Some k' /\ blank k'.
Proof.
  intros L. destruct j as [|j]; [lia|]. unfold ks. cbn [lookup list_lookup]. destruct (lookup_lt_is_Some_2 gk j ltac:(lia)) as [k' E].
  exists k'. split; [by apply lookup_app_l_Some|]. rewrite Forall_lookup in Bg. by apply (Bg j).
Qed.
Let at_name k : ks k !! (1 + length gk) = Some k.
Proof. change (ks k !! (1 + length gk)) with ((gk ++ [k]) !! length gk). by apply list_lookup_middle. Qed.
Let len k : length (ks k) = 2 + length gk.
Proof. unfold ks. cbn [length]. rewrite app_length. cbn [length]. lia. Qed.
Let set_name k k' : <[1 + length gk := k']> (ks k) = ks k'.
Proof. change (k0 :: <[length gk := k']> (gk ++ [k]) = k0 :: gk ++ [k']). f_equal. rewrite insert_app_r_alt by lia. by rewrite Nat.sub_diag. Qed.
Context (Ll : 2 + length gk <= length ls).
Lemma type_gap f (s : st) x0 : k0 = KType -> ls !! 0 = Some x0 -> base h0 ls (s_heap s) -> Kp h0 ls okr (ks KRaw) (s_heap s) -> 8 * length ls <= f ->
  wp (type_run f (Some x0) []) (fun _ s' => base h0 ls (s_heap s') /\ Kp h0 ls okr (ks KTypeName) (s_heap s')) s.
Proof.
  intros Ek E0 B HK Lf. assert (K0 : kind_of (s_heap s) (Some x0) = KType) by (rewrite <- Ek; by apply (pre_kind h0 ls (ks KRaw) _ 0 x0 k0 (proj1 HK) E0)).
  pose proof (len KRaw) as Lr. rewrite type_run_eq. apply wp_bind, wp_get_kind. rewrite K0. kred. unfold walk. apply wp_bind.
  apply step_iterM; [lia|]. apply wb_run. unfold ty_sw at 1. apply wp_bind, wp_get_kind. rewrite K0. kred. apply wp_ret. cbn [fst snd].
  rewrite (pre_next h0 ls (ks KRaw) _ 0 x0 (proj1 HK) E0) by lia.
  apply (skip_gap h0 ls true (ty_sw f []) (false, false) (ks KRaw) s _ (passes_type f) (proj1 HK) ltac:(lia) (length gk)); [apply at_gap|lia|lia|].
  destruct (lookup_lt_is_Some_2 ls (1 + length gk) ltac:(lia)) as [x2 E2]. rewrite E2.
  apply step_iterM; [lia|]. apply wb_run. unfold ty_sw at 1. apply wp_bind, wp_get_kind. rewrite (pre_kind h0 ls (ks KRaw) _ _ x2 KRaw (proj1 HK) E2 (at_name KRaw)). kred. apply wp_bind.
  apply (set_kind_pre h0 ls C0 okr (ks KRaw) (1 + length gk)); [done|done|done|lia|apply okk_base, mem_kind_true; reflexivity|].
  rewrite set_name. clear s B HK K0. intros s B HK. apply wp_ret. cbn [fst snd]. pose proof (len KTypeName) as Lt. eapply wp_mono.
  - apply (ty_tail h0 ls W0 C0 okr (ks KTypeName)); [done|exact HK| |lia|lia].
    rewrite Lt. change (2 + length gk) with (Datatypes.S (1 + length gk)). eapply (base_next h0 ls); [exact B|]. by apply from_at.
  - intros r s2 (B2 & K2). by apply wp_ret.
Qed.
Notation post := (gf_post h0 ls okr (ks KFuncName)).
Lemma walk_gap f (s : st) : base h0 ls (s_heap s) -> Kp h0 ls okr (ks KRaw) (s_heap s) -> 6 * (length ls - 1) <= f ->
  wp (walk false f [] (gf_sw f (cset_new [KNewLine]) []) (ls !! 1) (false, false)) post s.
Proof.
  intros B HK Lf. pose proof (len KRaw) as Lr. unfold walk. apply wp_bind.
  apply (skip_gap h0 ls false (gf_sw f (cset_new [KNewLine]) []) (false, false) (ks KRaw) s _ (passes_general f) (proj1 HK) ltac:(lia) (length gk)); [apply at_gap|lia|lia|].
  destruct (lookup_lt_is_Some_2 ls (1 + length gk) ltac:(lia)) as [x2 E2]. rewrite E2.
  apply step_iterM; [lia|]. apply wb_run. unfold gf_sw at 1. apply wp_bind, wp_get_kind.
  rewrite (pre_kind h0 ls (ks KRaw) _ _ x2 KRaw (proj1 HK) E2 (at_name KRaw)). kred. apply wp_bind.
  apply (set_kind_pre h0 ls C0 okr (ks KRaw) (1 + length gk)); [done|done|done|lia|apply okk_base, mem_kind_true; reflexivity|].
  rewrite set_name. intros s' B' HK'. apply wp_ret. cbn [fst snd]. pose proof (len KFuncName) as Lt. eapply wp_mono.
  - apply (gf_tail h0 ls W0 C0 okr (ks KFuncName)); [done|exact HK'| |lia|lia].
    rewrite Lt. change (2 + length gk) with (Datatypes.S (1 + length gk)). eapply (base_next h0 ls); [exact B'|]. by apply from_at.
  - intros r s2 (B2 & K2 & H2). apply wp_ret. split; [done|]. split; [done|]. intros l El. specialize (H2 l El).
    rewrite contain_new in H2. apply bool_decide_eq_true in H2. by apply elem_of_list_singleton in H2.
Qed.
Lemma general_gap f i p k (s : st) : gk <> [] -> k0 = KFunc -> i < 2 -> ls !! i = Some p -> kind_of (s_heap s) (Some p) = k -> base h0 ls (s_heap s) -> Kp h0 ls okr (ks KRaw) (s_heap s) -> 6 * (length ls - 1) < f ->
  wp (general_func f (Some p) [KNewLine] []) post s.
Proof.
  intros Ng Ek Li Ei Kp_ B HK Lf. pose proof (len KRaw) as Lr. destruct f as [|f]; [lia|]. rewrite general_func_eq. apply wp_bind, wp_get_kind, wp_bind.
  destruct i as [|[|]]; [| |lia].
  - rewrite (pre_kind h0 ls (ks KRaw) _ 0 p KFunc (proj1 HK) Ei); [|by rewrite <- Ek]. kred. apply wp_bind. unfold wp at 1, handle_hook. cbn [fold_left].
    apply wp_get_next. rewrite (pre_next h0 ls (ks KRaw) _ 0 p (proj1 HK) Ei) by lia. apply walk_gap; [done|done|lia].
  - assert (Lg : 0 < length gk) by (destruct gk; [done|cbn; lia]). destruct (at_gap KRaw 1 ltac:(lia)) as (k' & E' & Bk). rewrite (pre_kind h0 ls (ks KRaw) _ 1 p k' (proj1 HK) Ei E').
    rewrite <- Ei. destruct Bk as [-> | ->]; kred; apply wp_ret; (apply walk_gap; [done|done|lia]).
Qed.
Lemma func_gap f (s : st) x0 : gk <> [] -> k0 = KFunc -> ls !! 0 = Some x0 -> base h0 ls (s_heap s) -> Kp h0 ls okr (ks KRaw) (s_heap s) -> 8 * length ls <= f ->
  wp (func_run f ff_l (Some x0) []) (fun _ s' => base h0 ls (s_heap s') /\ Kp h0 ls okr (ks KFuncName) (s_heap s')) s.
Proof.
  intros Ng Ek E0 B HK Lf. pose proof (len KRaw) as Lr. assert (K0 : kind_of (s_heap s) (Some x0) = KFunc) by (rewrite <- Ek; by apply (pre_kind h0 ls (ks KRaw) _ 0 x0 k0 (proj1 HK) E0)).
  destruct f as [|f]; [lia|]. rewrite func_run_eq. cbn [ff_param ff_iface ff_lead ff_l]. apply wp_bind.
  eapply wp_mono; [apply (is_temp_ok h0 ls 0); [done|by apply from_at|lia]|]. intros tmp s' ->. cbv beta.
  destruct tmp.
  { eapply wp_mono; [apply (general_gap f 0 x0 KFunc); try done; lia|]. intros r s' (? & ? & _). done. }
  apply wp_bind, wp_get_kind, wp_bind. unfold wp at 1, handle_hook. cbn [fold_left]. apply wp_bind, wp_get_next.
  rewrite K0. kred. rewrite (pre_next h0 ls (ks KRaw) _ 0 x0 (proj1 HK) E0) by lia.
  unfold fr_main, walk. apply wp_bind. cbn [ff_notmethod ff_l].
  destruct (lookup_lt_is_Some_2 ls 1 ltac:(lia)) as [x1 E1].
  apply (skip_gap h0 ls false (fr_sw f (ls !! 1) []) (false, false) (ks KRaw) s _ (passes_func f _) (proj1 HK) ltac:(lia) (length gk)); [apply at_gap|lia|lia|].
  destruct (lookup_lt_is_Some_2 ls (1 + length gk) ltac:(lia)) as [x2 E2]. rewrite E2, E1.
  apply step_iterM; [lia|]. apply wb_run. unfold fr_sw at 1. apply wp_bind, wp_get_kind.
  rewrite (pre_kind h0 ls (ks KRaw) _ _ x2 KRaw (proj1 HK) E2 (at_name KRaw)). cbn [fst snd]. kred. apply wp_bind.
  eapply wp_mono; [apply (general_gap f 1 x1 (kind_of (s_heap s) (Some x1))); try done; lia|]. intros r s' (B' & HK' & Hr). cbv beta. apply wp_ret. cbn [fst snd].
  eapply wp_mono.
  - apply (jump_tail h0 ls _ r _ (2 + length gk)); [done| |lia|].
    + change (2 + length gk) with (Datatypes.S (1 + length gk)). eapply (base_next h0 ls); [exact B'|by apply from_at].
    + intros l ->. unfold fr_sw. apply wp_bind, wp_get_kind. rewrite (Hr l eq_refl). cbn [fst snd]. kred. by apply wp_ret.
  - intros r' s2 ->. by apply wp_ret.
Qed.
End run.
Lemma gap_kinds gap : (forall c, c ∈ gap -> c = c_sp \/ c = c_tab) -> exists gt : list (str * kind), map fst gt = map (fun c => [c]) gap /\ Forall blank (map snd gt) /\ length gt = length gap /\
  Forall (fun t : str * kind => count_nl (fst t) = 0%Z) gt /\
  forall name k rest, plain_word name -> kind_new name = k -> word_ends rest -> lexes (gap ++ name ++ rest) (gt ++ [(name, k)]) rest.
Proof.
  intros G. induction gap as [|c gap IH].
  - exists []. split; [done|]. split; [constructor|]. split; [done|]. split; [constructor|]. intros name k rest P K W. cbn [app]. apply lexes_one. by apply kw_token.
  - destruct IH as (gt & E & B & L & Z & H); [intros c' Hc'; apply G; by right|]. destruct (G c ltac:(by left)) as [->| ->].
    + exists (([c_sp], KSpace) :: gt). cbn [map fst snd]. rewrite E. split; [done|]. split; [constructor; [by left|done]|]. split; [cbn [length]; congruence|]. split; [constructor; [reflexivity|done]|].
      intros name k rest P K W. eapply lx_cons; [apply (sep_token c_sp), sep_in; reflexivity|]. by apply H.
    + exists (([c_tab], KTab) :: gt). cbn [map fst snd]. rewrite E. split; [done|]. split; [constructor; [by right|done]|]. split; [cbn [length]; congruence|]. split; [constructor; [reflexivity|done]|].
      intros name k rest P K W. eapply lx_cons; [apply (sep_token c_tab), sep_in; reflexivity|]. by apply H.
Qed.
Lemma gap_facts kw k0 k1 gk name (ts : list str) : Forall blank gk -> mem_kind k1 [k0; KSpace; KTab] = false -> length ts = length gk ->
  (kw :: ts ++ [name]) !! (1 + length gk) = Some name /\ (k0 :: gk ++ [k1]) !! (1 + length gk) = Some k1 /\ mem_kind k1 (take (1 + length gk) (k0 :: gk ++ [k1])) = false.
Proof.
  intros B N L. split; [|split].
  - change ((ts ++ [name]) !! length gk = Some name). by apply list_lookup_middle.
  - change ((gk ++ [k1]) !! length gk = Some k1). by apply list_lookup_middle.
  - cbn [Nat.add take]. rewrite take_app. apply mem_kind_false in N. apply mem_kind_false. intros H. apply N. apply elem_of_cons in H as [->|H]; [by left|].
    rewrite Forall_forall in B. destruct (B _ H) as [->| ->]; [right; by left|right; right; by left].
Qed.
(** A text that starts with [func], any spaces and tabs (at least one) and a word:
    the name is found and there is no receiver, whatever follows. *)
Theorem C41_func_name_gap : forall ord h startLine gap name rest h' scs, any_order ord -> SpecNode.wf h -> startLine <> 1%Z ->
  gap <> [] -> (forall c, c ∈ gap -> c = c_sp \/ c = c_tab) -> plain_word name -> kind_new name = KRaw -> word_ends rest ->
  parse_scope ord h startLine ($"func" ++ gap ++ name ++ rest) = Ok (h', scs) ->
  exists sc scs', scs = sc :: scs' /\ sc_kind sc = SFunc /\
    get_func_name h' sc = Ok (name, true) /\
    (exists t, get_method_receiver h' sc = Ok (t, false)) /\ get_method_name h' sc = Ok ([], false).
Proof.
  intros ord h n gap name rest h' scs O W Nn Gn Gs PW Kn WE E. destruct (gap_kinds gap Gs) as (gt & Egt & Bg & Lg & Z & L).
  specialize (L name KRaw rest PW Kn WE).
  assert (LL : lexes ($"func" ++ gap ++ name ++ rest) (($"func", KFunc) :: gt ++ [(name, KRaw)]) rest).
  { apply (lx_cons _ _ _ (gap ++ name ++ rest)); [|done]. apply kw_token; [by apply plain_check| |reflexivity].
    destruct gap as [|c gap]; [done|]. cbn [app]. apply ends_sep, sep_in. by destruct (Gs c ltac:(by left)) as [->| ->]. }
  destruct (header_result ord h n _ _ _ _ _ false (KFunc :: map snd gt ++ [KFuncName]) never h' scs O W Nn LL) as (sc & scs' & cur & -> & Ks & SN & P & Nr).
  - exists $"func". split; [apply (proj1 (bool_decide_eq_true ($"func" ∈ scope_keywords))); reflexivity|done].
  - constructor; [reflexivity|]. apply Forall_app. split; [done|]. repeat constructor; cbn [fst]; by apply plain_no_nl.
  - cbn [length]. rewrite !app_length, map_length. done.
  - intros g Hg h1 W1 C1 HK _. cbn [length] in Hg. rewrite app_length in Hg. cbn [length] in Hg.
    destruct g as [|x0 g]; [cbn in Hg; lia|]. unfold reset_kind. apply wp_bind, wp_get_kind. cbn [head hd_error s_heap].
    assert (HK' : Kp h1 (x0 :: g) false (KFunc :: map snd gt ++ [KRaw]) h1) by (cbn [map snd] in HK; by rewrite map_app in HK).
    rewrite (pre_kind h1 _ _ _ 0 x0 KFunc (proj1 HK') eq_refl eq_refl). kred.
    apply (func_gap h1 _ W1 C1 false (map snd gt) Bg KFunc); [lia| |done|done|by apply base_init|done|by apply fuel_enough].
    intros Em. destruct gt; [|done]. destruct gap; [done|discriminate Lg].
  - exact never_mono.
  - by intros ? ? ?.
  - exact E.
  - change (sc_kind sc = SFunc) in Ks. exists sc, scs'. split; [done|]. split; [done|].
    cbn [map fst] in P. rewrite map_app in P. cbn [map fst] in P.
    destruct (gap_facts $"func" KFunc KFuncName (map snd gt) name (map fst gt) Bg eq_refl) as (F1 & F2 & F3); [by rewrite !map_length|].
    assert (Le : length ($"func" :: map fst gt ++ [name]) = length (KFunc :: map snd gt ++ [KFuncName])) by (cbn [length]; by rewrite !app_length, !map_length).
    destruct (first_text h' cur _ _ _ name KFuncName P Le F1 F2 F3) as [G1 G2].
    split; [|split].
    + destruct (C44_func_name h' sc cur Ks SN) as [(l & Fl & ->)|[Nk _]]; [by rewrite (G1 l Fl)|by destruct G2].
    + destruct (C44_method_receiver h' sc cur Ks SN) as [(l & (xs & ys & El & Kl & _) & _)|[_ ->]]; [|by eexists].
      destruct (Nr eq_refl l); [rewrite El; apply elem_of_app; right; by left|done].
    + destruct (C44_method_name h' sc cur Ks SN) as [[_ ->]|[(l & xs & ys & El & Kl & _) _]]; [done|].
      destruct (Nr eq_refl l); [rewrite El; apply elem_of_app; right; by left|done].
Qed.
(** The same for [type]. *)
Theorem C43_type_name_gap : forall ord h startLine gap name rest h' scs, any_order ord -> SpecNode.wf h -> startLine <> 1%Z ->
  gap <> [] -> (forall c, c ∈ gap -> c = c_sp \/ c = c_tab) -> plain_word name -> kind_new name = KRaw -> word_ends rest ->
  parse_scope ord h startLine ($"type" ++ gap ++ name ++ rest) = Ok (h', scs) ->
  exists sc scs', scs = sc :: scs' /\ sc_kind sc = SType /\ get_type_name h' sc = Ok (name, true).
Proof.
  intros ord h n gap name rest h' scs O W Nn Gn Gs PW Kn WE E. destruct (gap_kinds gap Gs) as (gt & Egt & Bg & Lg & Z & L).
  specialize (L name KRaw rest PW Kn WE).
  assert (LL : lexes ($"type" ++ gap ++ name ++ rest) (($"type", KType) :: gt ++ [(name, KRaw)]) rest).
  { apply (lx_cons _ _ _ (gap ++ name ++ rest)); [|done]. apply kw_token; [by apply plain_check| |reflexivity].
    destruct gap as [|c gap]; [done|]. cbn [app]. apply ends_sep, sep_in. by destruct (Gs c ltac:(by left)) as [->| ->]. }
  destruct (header_result ord h n _ _ _ _ _ true (KType :: map snd gt ++ [KTypeName]) never h' scs O W Nn LL) as (sc & scs' & cur & -> & Ks & SN & P & Nr).
  - exists $"type". split; [apply (proj1 (bool_decide_eq_true ($"type" ∈ scope_keywords))); reflexivity|done].
  - constructor; [reflexivity|]. apply Forall_app. split; [done|]. repeat constructor; cbn [fst]; by apply plain_no_nl.
  - cbn [length]. rewrite !app_length, map_length. done.
  - intros g Hg h1 W1 C1 HK _. cbn [length] in Hg. rewrite app_length in Hg. cbn [length] in Hg.
    destruct g as [|x0 g]; [cbn in Hg; lia|]. unfold reset_kind. apply wp_bind, wp_get_kind. cbn [head hd_error s_heap].
    assert (HK' : Kp h1 (x0 :: g) true (KType :: map snd gt ++ [KRaw]) h1) by (cbn [map snd] in HK; by rewrite map_app in HK).
    rewrite (pre_kind h1 _ _ _ 0 x0 KType (proj1 HK') eq_refl eq_refl). kred.
    apply (type_gap h1 _ W1 C1 true (map snd gt) Bg KType); [lia|done|done|by apply base_init|done|by apply fuel_enough].
  - exact never_mono.
  - by intros ? ? ?.
  - exact E.
  - change (sc_kind sc = SType) in Ks. exists sc, scs'. split; [done|]. split; [done|].
    cbn [map fst] in P. rewrite map_app in P. cbn [map fst] in P.
    destruct (gap_facts $"type" KType KTypeName (map snd gt) name (map fst gt) Bg eq_refl) as (F1 & F2 & F3); [by rewrite !map_length|].
    assert (Le : length ($"type" :: map fst gt ++ [name]) = length (KType :: map snd gt ++ [KTypeName])) by (cbn [length]; by rewrite !app_length, !map_length).
    destruct (first_text h' cur _ _ _ name KTypeName P Le F1 F2 F3) as [G1 G2].
    destruct (C44_type_name h' sc cur Ks SN) as [(l & Fl & ->)|[Nk _]]; [by rewrite (G1 l Fl)|by destruct G2].
Qed.
Example ex_C41_gap : plain_word $"f" /\ kind_new $"f" = KRaw /\ word_ends ($"(){}" ++ [c_nl]) /\
  match parse_scope src_ord [] 0 ($"func" ++ [c_tab; c_sp; c_sp] ++ $"f" ++ $"(){}" ++ [c_nl]) with
  | Ok (h', sc :: _) => get_func_name h' sc = Ok ($"f", true) | _ => False end /\
  match parse_scope src_ord [] 0 ($"type" ++ [c_sp; c_tab] ++ $"f" ++ $" int" ++ [c_nl]) with
  | Ok (h', sc :: _) => get_type_name h' sc = Ok ($"f", true) | _ => False end.
Proof. split; [by apply plain_check|]. split; [reflexivity|]. split; [by apply ends_sep, sep_in|]. split; vm_compute; reflexivity. Qed.
