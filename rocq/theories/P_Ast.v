(** C45-C48, C50-C53: asts and files (ast.go, helper/helper.go).  Statements use
    the models [Scope.v], [Ast.v] and the vocabulary of [SpecAst.v]. *)
From Verif Require Import SpecAst ResetSpec P_Pure P_Lex P_Node P_Scope HeaderProofs.

(** ** Lemmas *)
Lemma head_hd_ptr (ls : list loc) : head ls = hd_ptr ls None. Proof. by destruct ls. Qed.
Lemma scan_nodes {A} h sc ls (fn : loc -> A -> A * bool) a : scope_nodes h sc ls ->
  scan_next h (sc_node sc) fn a = Ok (scan_list fn ls a).
Proof.
  intros [-> [pre C]]. rewrite head_hd_ptr. apply seg_app in C as [_ C]. by eapply scan_next_seg.
Qed.

Section package.
Context (h : heap).
Let raw l := kind_of h (Some l) = KRaw.
Let pkg l := kind_of h (Some l) = KPackage.
Let found (seen : bool) (ls : list loc) (l : loc) : Prop :=
  exists xs ys, ls = xs ++ l :: ys /\ raw l /\ (seen = true \/ exists x, x ∈ xs /\ pkg x) /\
    forall us y ws, xs = us ++ y :: ws -> seen = true \/ (exists x, x ∈ us /\ pkg x) -> ~ raw y.
Lemma scan_package ls : forall seen,
  match snd (scan_list (package_step h) ls seen) with Some l => found seen ls l | None => forall l, ~ found seen ls l end.
Proof.
  induction ls as [|a ls IH]; intros seen; cbn [scan_list].
  { intros l (xs & ys & E & _). by destruct xs. }
  unfold package_step at 1. destruct (kind_eqb (kind_of h (Some a)) KRaw) eqn:Er.
  - apply kind_eqb_true in Er. destruct seen; cbn [andb snd].
    + exists [], ls. split_and!; [done|done|by left|]. intros us y ws E. by destruct us.
    + assert (Np : kind_eqb (kind_of h (Some a)) KPackage = false) by (rewrite Er; reflexivity). rewrite Np.
      specialize (IH false). destruct (snd (scan_list _ ls false)) as [l|].
      * destruct IH as (xs & ys & -> & R & S & M). exists (a :: xs), ys. split; [done|]. split; [done|]. split.
        { right. destruct S as [|(x & Hx & Px)]; [done|]. exists x. split; [by right|done]. }
        intros us y ws E. destruct us as [|u us]; injection E as -> E.
        { intros [|(x & Hx & _)]; [done|]. by apply elem_of_nil in Hx. }
        intros [|(x & Hx & Px)]; [done|]. apply (M us y ws E). right. exists x. split; [|done].
        apply elem_of_cons in Hx as [-> |Hx]; [|done]. unfold pkg in Px. rewrite Er in Px. discriminate Px.
      * intros l (xs & ys & E & R & S & M). destruct S as [|(x & Hx & Px)]; [done|].
        destruct xs as [|b xs]; injection E as -> E; [by apply elem_of_nil in Hx|].
        apply (IH l). exists xs, ys. split; [done|]. split; [done|]. split.
        { right. exists x. split; [|done]. apply elem_of_cons in Hx as [-> |Hx]; [|done]. unfold pkg in Px. rewrite Er in Px. discriminate Px. }
        intros us y ws E2 [|(z & Hz & Pz)]; [done|]. apply (M (b :: us) y ws); [by rewrite E2|]. right. exists z. split; [by right|done].
  - apply kind_eqb_false in Er. rewrite andb_false_r.
    set (seen' := if kind_eqb (kind_of h (Some a)) KPackage then true else seen).
    assert (Es : seen' = true <-> seen = true \/ pkg a).
    { unfold seen', pkg. destruct (kind_eqb _ KPackage) eqn:E; [apply kind_eqb_true in E; tauto|apply kind_eqb_false in E; tauto]. }
    specialize (IH seen'). destruct (snd (scan_list _ ls seen')) as [l|].
    + destruct IH as (xs & ys & -> & R & S & M). exists (a :: xs), ys. split; [done|]. split; [done|]. split.
      { destruct S as [S|(x & Hx & Px)]; [|right; exists x; split; [by right|done]].
        apply Es in S as [S|S]; [by left|]. right. exists a. split; [by left|done]. }
      intros us y ws E. destruct us as [|u us]; injection E as -> E; [done|].
      intros S'. apply (M us y ws E). destruct S' as [S'|(x & Hx & Px)]; [left; apply Es; by left|].
      apply elem_of_cons in Hx as [-> |Hx]; [left; apply Es; by right|right; by exists x].
    + intros l (xs & ys & E & R & S & M). destruct xs as [|b xs]; injection E as -> E; [done|].
      apply (IH l). exists xs, ys. split; [done|]. split; [done|]. split.
      { destruct S as [S|(x & Hx & Px)]; [left; apply Es; by left|].
        apply elem_of_cons in Hx as [-> |Hx]; [left; apply Es; by right|right; by exists x]. }
      intros us y ws E2 S'. apply (M (b :: us) y ws); [by rewrite E2|].
      destruct S' as [S'|(x & Hx & Px)]; [|right; exists x; split; [by right|done]].
      apply Es in S' as [S'|S']; [by left|]. right. exists b. split; [by left|done].
Qed.
Lemma found_named ls l : found false ls l <-> named_by h ls l.
Proof.
  split.
  - intros (xs & ys & E & R & [S|S] & M); [done|]. exists xs, ys. split; [done|]. split; [done|]. split; [done|].
    intros us x vs y ws E2 Px. apply (M (us ++ x :: vs) y ws); [by rewrite E2, <- app_assoc|]. right. exists x. split; [|done].
    apply elem_of_app. right. by left.
  - intros (xs & ys & E & R & S & M). exists xs, ys. split; [done|]. split; [done|]. split; [by right|].
    intros us y ws E2 [|(x & Hx & Px)]; [done|]. apply elem_of_list_split in Hx as (u1 & u2 & ->).
    apply (M u1 x u2 y ws); [|done]. by rewrite E2, <- app_assoc.
Qed.
End package.

Lemma find_scope scs : (forall o, o ∈ scs -> o <> None) ->
  (exists scs1 sc scs2, scs = scs1 ++ Some sc :: scs2 /\ (forall sc', Some sc' ∈ scs1 -> sc_kind sc' <> SPackage) /\ sc_kind sc = SPackage /\
     find_package_scope scs = Ok (Some sc)) \/
  ((forall sc, Some sc ∈ scs -> sc_kind sc <> SPackage) /\ find_package_scope scs = Ok None).
Proof.
  induction scs as [|o scs IH]; intros N.
  { right. split; [|done]. intros sc H. by apply elem_of_nil in H. }
  destruct o as [sc|]; [|by destruct (N None (elem_of_list_here _ _))]. cbn [find_package_scope].
  destruct (str_eqb (sc_kind sc) SPackage) eqn:E.
  - apply bool_decide_eq_true in E. left. exists [], sc, scs. split; [done|]. split; [|done]. intros sc' H. by apply elem_of_nil in H.
  - apply bool_decide_eq_false in E. destruct IH as [(scs1 & sc' & scs2 & -> & N1 & K & F)|[N1 F]].
    + intros o Ho. apply N. by right.
    + left. exists (Some sc :: scs1), sc', scs2. split; [done|]. split; [|done]. intros x Hx. apply elem_of_cons in Hx as [[= ->]|Hx]; [done|by apply N1].
    + right. split; [|done]. intros x Hx. apply elem_of_cons in Hx as [[= ->]|Hx]; [done|by apply N1].
Qed.

(** ** C45 *)
Theorem C45_package : forall h m a scs lss, elems m (a_scope a) = scs -> all_nodes h scs lss ->
  (forall sc, Some sc ∈ scs -> sc_kind sc <> SPackage) /\ ast_package h m a = Ok (inr ErrNoPackage) \/
  exists scs1 sc scs2 ls name, scs = scs1 ++ Some sc :: scs2 /\ (forall sc', Some sc' ∈ scs1 -> sc_kind sc' <> SPackage) /\
    sc_kind sc = SPackage /\ scope_nodes h sc ls /\ ast_package h m a = Ok (inl name) /\
    ((exists l, named_by h ls l /\ name = text_of h (Some l)) \/ (forall l, ~ named_by h ls l) /\ name = []).
Proof.
  intros h m a scs lss Es A. unfold ast_package, find_package_name. rewrite Es.
  assert (N : forall o, o ∈ scs -> o <> None).
  { intros o Ho. apply elem_of_list_lookup in Ho as [i Ho]. destruct (Forall2_lookup_l _ _ _ _ _ A Ho) as (ls & _ & sc & -> & _). done. }
  destruct (find_scope scs N) as [(scs1 & sc & scs2 & E & N1 & K & F)|[N1 F]]; rewrite F; cbn [res_bind]; [|by left].
  right. assert (Hi : scs !! length scs1 = Some (Some sc)) by (rewrite E; by apply list_lookup_middle).
  destruct (Forall2_lookup_l _ _ _ _ _ A Hi) as (ls & _ & sc' & [= <-] & SN).
  rewrite (scan_nodes h sc ls _ _ SN). cbn [res_bind]. pose proof (scan_package h ls false) as P.
  eexists scs1, sc, scs2, ls, _. do 4 (split; [done|]). split; [reflexivity|].
  destruct (snd (scan_list _ ls false)) as [l|].
  - left. exists l. split; [by apply found_named|done].
  - right. split; [|done]. intros l Hl. apply (P l). by apply found_named.
Qed.
(** NewAst fails exactly when Package would, and otherwise keeps the scopes. *)
Theorem C45_new_ast : forall h m s scs lss, elems m s = scs -> all_nodes h scs lss ->
  (forall sc, Some sc ∈ scs -> sc_kind sc <> SPackage) /\ new_ast h m s = Ok (inr ErrNoPackage) \/
  (exists sc, Some sc ∈ scs /\ sc_kind sc = SPackage) /\
    exists a, new_ast h m s = Ok (inl a) /\ a_scope a = s /\ a_file a = [] /\ a_dir a = [] /\ a_name a = [] /\ a_ext a = [].
Proof.
  intros h m s scs lss Es A. unfold new_ast.
  destruct (C45_package h m (mkAst [] [] [] [] s) scs lss Es A) as [[N E]|(scs1 & sc & scs2 & ls & name & Ec & N & K & SN & E & _)];
    unfold ast_package in E; cbn [a_scope] in E; rewrite E; cbn [res_bind].
  - by left.
  - right. split; [exists sc; split; [|done]; rewrite Ec; apply elem_of_app; right; by left|]. by eexists.
Qed.
Lemma refined_unchanged h2 h' g : SpecNode.wf h' -> refined_from h2 h' g -> kind_of h2 (head g) <> KFunc -> kind_of h2 (head g) <> KType ->
  chain h2 g -> length h' = length h2 -> chain h' g /\ forall l, l ∈ g -> pay h' l = pay h2 l.
Proof.
  intros W' R N1 N2 C Ll. destruct (refined_facts h2 h' g W' R) as (_ & _ & Un). specialize (Un N1 N2). split.
  - by eapply chain_same_nodes.
  - intros x Hx. assert (Eq : forall (A : Type) (d : A) f, field d f h' (Some x) = field d f h2 (Some x)) by (intros; apply field_ext; by apply Un).
    unfold pay. f_equal; [f_equal|]; apply Eq.
Qed.
(** A text that begins with a package clause. *)
Theorem C45_package_clause : forall ord h startLine gap name rest h' scs, any_order ord -> SpecNode.wf h -> startLine <> 1%Z ->
  gap <> [] -> (forall c, c ∈ gap -> c = c_sp \/ c = c_tab) -> plain_word name -> kind_new name = KRaw -> word_ends rest ->
  parse_scope ord h startLine ($"package" ++ gap ++ name ++ rest) = Ok (h', scs) ->
  exists sc scs', scs = sc :: scs' /\ sc_kind sc = SPackage /\ find_package_name h' (map Some scs) = Ok (inl name).
Proof.
  intros ord h n gap name rest h' scs O W Nn Gn Gs PW Kn WE E.
  assert (Pp : plain_word $"package").
  { split; [done|]. intros c Hc. assert (A : forallb (fun c => negb (bool_decide (c ∈ separators)) && negb (bool_decide (c = c_dq)) && negb (bool_decide (c = c_bq)) && negb (bool_decide (c = "/"%char))) $"package" = true) by reflexivity.
    rewrite forallb_forall in A. specialize (A c (proj1 (elem_of_list_In _ _) Hc)). rewrite !andb_true_iff, !negb_true_iff, !bool_decide_eq_false in A. tauto. }
  assert (Sp : forall c, c ∈ gap -> c ∈ separators).
  { intros c Hc. destruct (Gs c Hc) as [->| ->]; [apply (proj1 (bool_decide_eq_true (c_sp ∈ separators)))|apply (proj1 (bool_decide_eq_true (c_tab ∈ separators)))]; reflexivity. }
  assert (Lg : forall g, (forall c, c ∈ g -> c ∈ separators) -> lexes (g ++ name ++ rest) (map (fun c => ([c], kind_new [c])) g ++ [(name, KRaw)]) rest).
  { induction g as [|c g IH]; intros Hg; cbn [app map].
    - apply lexes_one. rewrite <- Kn. by apply plain_token.
    - eapply lx_cons; [apply sep_token, Hg; by left|]. apply IH. intros c' Hc'. apply Hg. by right. }
  assert (L : lexes ($"package" ++ gap ++ name ++ rest) (($"package", KPackage) :: map (fun c => ([c], kind_new [c])) gap ++ [(name, KRaw)]) rest).
  { apply (lx_cons _ _ _ (gap ++ name ++ rest)); [|by apply Lg]. change KPackage with (kind_new $"package").
    apply plain_token; [done|]. destruct gap as [|c gap]; [done|]. right. right. exists c. split; [done|]. apply Sp. by left. }
  assert (Gt : exists gt, gt = map (fun c => ([c], kind_new [c])) gap) by by eexists. destruct Gt as [gt Egt]. rewrite <- Egt in L.
  destruct (header_scope ord h n _ _ _ _ _ h' scs O W Nn L) as (h1 & h2 & l0 & xs & g & gs & T & Ep & -> & W1 & W' & SP & Ll & C & R); [| |done|].
  - exists $"package". split; [by left|done].
  - constructor; [reflexivity|]. apply Forall_app. split; [|repeat constructor; cbn [fst]; by apply plain_no_nl].
    apply Forall_forall. intros x Hx. rewrite Egt in Hx. apply elem_of_list_fmap in Hx as (c & -> & Hc). cbn [fst]. by destruct (Gs c Hc) as [->| ->].
  - cbn [map fst snd] in Ep. injection Ep as El0 Et0 Ek0 Ep.
    rewrite map_app in Ep. cbn [map fst snd] in Ep. apply map_eq_app in Ep as (ys & [|l2 [|]] & -> & Ey & El); try discriminate El. cbn [map] in El. injection El as El2 Et2 Ek2.
    destruct (refined_unchanged h2 h' ((l0 :: ys ++ [l2]) ++ g) W' R) as [C' P]; [..|done|by rewrite Ll; symmetry; apply SP|].
    1,2: cbn [app head hd_error]; rewrite (proj1 (proj2 (proj2 SP (Some l0)))), Ek0; done.
    assert (Pk : forall l, l ∈ (l0 :: ys ++ [l2]) ++ g -> kind_of h' (Some l) = kind_of h1 (Some l) /\ text_of h' (Some l) = text_of h1 (Some l)).
    { intros l Hl. specialize (P l Hl). unfold pay in P. injection P as _ Pt Pk. destruct (proj2 SP (Some l)) as (_ & S2 & S3).
      by rewrite Pt, Pk, S2, S3. }
    set (sc := scope_of h1 ((l0 :: ys ++ [l2]) ++ g)).
    assert (Ksc : sc_kind sc = SPackage) by (unfold sc; cbn [app scope_of sc_kind]; rewrite Et0; reflexivity).
    exists sc, (map (scope_of h1) gs). split; [done|]. split; [done|].
    unfold find_package_name. cbn [map find_package_scope]. rewrite Ksc. change (str_eqb SPackage SPackage) with true. cbn [res_bind].
    rewrite (scan_nodes h' sc ((l0 :: ys ++ [l2]) ++ g)); [|split; [done|by exists []]]. cbn [res_bind app].
    cbn [scan_list]. unfold package_step at 1. cbn [andb].
    rewrite (proj1 (Pk l0 ltac:(by left))), Ek0. change (kind_eqb KPackage KPackage) with true.
    assert (Ky : forall l, l ∈ ys -> kind_of h' (Some l) = KSpace \/ kind_of h' (Some l) = KTab).
    { intros l Hl. rewrite (proj1 (Pk l ltac:(rewrite elem_of_app; left; right; rewrite elem_of_app; by left))).
      apply (elem_of_list_fmap_1 (pay h1)) in Hl. change (pay h1 <$> ys) with (map (pay h1) ys) in Hl. rewrite Ey in Hl.
      apply elem_of_list_fmap in Hl as (x & Hx & Hl). rewrite Egt in Hl. apply elem_of_list_fmap in Hl as (c & -> & Hc). pose proof (f_equal snd Hx) as Hk. change (kind_of h1 (Some l) = kind_new [c]) in Hk. rewrite Hk.
      destruct (Gs c Hc) as [Hcc|Hcc]; rewrite Hcc; [left|right]; vm_compute; reflexivity. }
    assert (Kl : kind_of h' (Some l2) = KRaw /\ text_of h' (Some l2) = name).
    { destruct (Pk l2) as [-> ->]; [rewrite elem_of_app; left; right; rewrite elem_of_app; right; by left|done]. }
    clear -Ky Kl. destruct Kl as [K2 T2]. rewrite <- app_assoc. induction ys as [|l ys IH].
    + cbn [app scan_list]. unfold package_step at 1. rewrite K2. change (kind_eqb KRaw KRaw) with true. cbn [andb snd]. by rewrite T2.
    + cbn [app scan_list]. unfold package_step at 1. destruct (Ky l ltac:(by left)) as [-> | ->].
      * change (kind_eqb KSpace KRaw) with false. change (kind_eqb KSpace KPackage) with false. cbn [andb]. apply IH. intros l' Hl'. apply Ky. by right.
      * change (kind_eqb KTab KRaw) with false. change (kind_eqb KTab KPackage) with false. cbn [andb]. apply IH. intros l' Hl'. apply Ky. by right.
Qed.
Example ex_C45 : plain_word $"main" /\ kind_new $"main" = KRaw /\ word_ends [c_nl] /\
  match parse_scope src_ord [] 0 ($"package" ++ [c_tab; c_sp] ++ $"main" ++ [c_nl]) with
  | Ok (h', scs) => find_package_name h' (map Some scs) = Ok (inl $"main") | _ => False end.
Proof.
  split.
  { split; [done|]. intros c Hc. assert (A : forallb (fun c => negb (bool_decide (c ∈ separators)) && negb (bool_decide (c = c_dq)) && negb (bool_decide (c = c_bq)) && negb (bool_decide (c = "/"%char))) $"main" = true) by reflexivity.
    rewrite forallb_forall in A. specialize (A c (proj1 (elem_of_list_In _ _) Hc)). rewrite !andb_true_iff, !negb_true_iff, !bool_decide_eq_false in A. tauto. }
  split; [reflexivity|]. split; [|vm_compute; reflexivity]. right. right. exists c_nl. split; [done|]. by apply (proj1 (bool_decide_eq_true (c_nl ∈ separators))).
Qed.
(** A package named like a basic type, or after a comment on its line, is not found. *)
Theorem C45_package_name_refuted :
  match parse_scope src_ord [] 0 ($"package byte" ++ [c_nl]) with
  | Ok (h', scs) => find_package_name h' (map Some scs) = Ok (inl []) | _ => False end /\
  match parse_scope src_ord [] 0 ($"/* l */ package main" ++ [c_nl]) with
  | Ok (h', scs) => find_package_name h' (map Some scs) = Ok (inr ErrNoPackage) | _ => False end.
Proof. split; vm_compute; reflexivity. Qed.

(** ** C46 *)
Lemma scan_collect (F : loc -> str) ls : forall acc,
  scan_list (fun l acc => (acc ++ F l, true)) ls acc = (acc ++ concat (map F ls), None).
Proof.
  induction ls as [|l ls IH]; intros acc; cbn [scan_list map concat]; [by rewrite app_nil_r|].
  rewrite IH. by rewrite <- app_assoc.
Qed.
Lemma save_text_spec h scs lss : all_nodes h scs lss -> save_text h scs = Ok (concat (map (text_at h) lss)).
Proof.
  induction 1 as [|o ls scs lss (sc & -> & SN) _ IH]; [done|]. cbn [save_text map concat]. unfold chain_text.
  rewrite (scan_nodes h sc ls _ _ SN). cbn [res_bind]. rewrite scan_collect, IH. done.
Qed.
Lemma go_path_spec file path : go_file file path -> go_path file = path.
Proof.
  unfold go_path. intros [H|H]; [by rewrite (proj2 (C20_has_suffix_spec _ _) H)|].
  destruct (has_suffix file $".go") eqn:E; [|done]. by apply C20_has_suffix_spec in E.
Qed.
Lemma fs_set_same f p c : fs_set f p c p = Some c. Proof. unfold fs_set. by rewrite bool_decide_eq_true_2. Qed.
Lemma fs_set_other f p c q : q <> p -> fs_set f p c q = f q. Proof. intros. unfold fs_set. by rewrite bool_decide_eq_false_2. Qed.

(** What gets written, given the text of the scopes. *)
Definition to_write (e : env) (path : str) (autoImport : bool) (t : str) : str :=
  match (if autoImport then en_imports e path t else en_format e t) with Some d => d | None => t end.
Theorem C46_save : forall e f h m a file path autoImport scs lss,
  elems m (a_scope a) = scs -> all_nodes h scs lss -> go_file file path ->
  let t := concat (map (text_at h) lss) in
  exists states f' err, ast_save e f h m a file autoImport = Ok (states, f', err) /\
    (t = [] -> err = Some ErrOther /\ f' = f) /\
    (t <> [] -> en_mkdir e (en_dir e path) = true -> en_create e path = true ->
       length (to_write e path autoImport t) <= en_write e path (to_write e path autoImport t) -> err = None) /\
    (err = None -> t <> [] /\ f' path = Some (to_write e path autoImport t)) /\
    (forall q, q <> path -> f' q = f q).
Proof.
  intros e f h m a file path ai scs lss Es A G t. unfold ast_save. rewrite Es, (save_text_spec h scs lss A). cbn [res_bind]. fold t.
  destruct t as [|c t]; cbn [save_file].
  { eexists _, _, _. split; [reflexivity|]. done. }
  unfold save_file. rewrite (go_path_spec file path G). cbv zeta.
  change (save_data e path (c :: t) ai) with (if ai then default (c :: t) (en_imports e path (c :: t)) else default (c :: t) (en_format e (c :: t))).
  assert (Ew : (if ai then default (c :: t) (en_imports e path (c :: t)) else default (c :: t) (en_format e (c :: t))) = to_write e path ai (c :: t)) by (unfold to_write; by destruct ai).
  rewrite Ew. set (w := to_write e path ai (c :: t)).
  destruct (en_mkdir e (en_dir e path)) eqn:M; cbn [negb].
  2:{ eexists _, _, _. split; [reflexivity|]. done. }
  destruct (en_create e path) eqn:Cr; cbn [negb].
  2:{ eexists _, _, _. split; [reflexivity|]. done. }
  eexists _, _, _. split; [reflexivity|]. split; [done|]. split; [|split].
  - intros _ _ _ L. rewrite (proj2 (Nat.ltb_ge _ _)); [done|]. lia.
  - destruct (Nat.ltb _ _) eqn:L; [done|]. intros _. split; [done|]. apply Nat.ltb_ge in L. rewrite fs_set_same. by rewrite take_ge by lia.
  - intros q Hq. by apply fs_set_other.
Qed.
Definition ex_env : env := mkEnv (fun s => Some s) (fun _ s => Some s) (fun _ => []) (fun s => s) (fun _ => $".go")
  (fun _ => true) (fun _ => true) (fun _ => true) (fun _ => true) (fun _ s => length s).
Definition ex_text : str := $"package a" ++ [c_nl] ++ $"func f() {" ++ [c_nl] ++ $"}" ++ [c_nl].
Definition ex_fs : fs := fun q => if bool_decide (q = $"x.go") then Some ex_text else None.
Example ex_C46 : match parse_ast ex_env ex_fs src_ord 3 [] [] $"x" with
  | Ok (h, m, inl a) => match ast_save ex_env ex_fs h m a $"y" false with
      | Ok (states, f', err) => err = None /\ f' $"y.go" = Some ex_text /\ f' $"x.go" = Some ex_text /\ length states = 3 + length ex_text
      | _ => False end
  | _ => False end.
Proof. vm_compute. repeat split. Qed.

(** ** C47 *)
Theorem C47_save_states : forall e f h m a file path autoImport scs lss states f' err,
  elems m (a_scope a) = scs -> all_nodes h scs lss -> go_file file path ->
  ast_save e f h m a file autoImport = Ok (states, f', err) ->
  let t := concat (map (text_at h) lss) in
  last states = Some f' /\ head states = Some f /\
  (err = None -> f' path = Some (to_write e path autoImport t)) /\
  forall s, s ∈ states -> (forall q, q <> path -> s q = f q) /\
    (s path = f path \/ exists n, n <= length (to_write e path autoImport t) /\ s path = Some (take n (to_write e path autoImport t))).
Proof.
  intros e f h m a file path ai scs lss states f' err Es A G E t. unfold ast_save in E. rewrite Es, (save_text_spec h scs lss A) in E. cbn [res_bind] in E. fold t in E.
  injection E as E. destruct t as [|c t]; cbn [save_file] in E.
  { injection E as <- <- <-. split; [done|]. split; [done|]. split; [done|]. intros s Hs. apply elem_of_list_singleton in Hs as ->. split; [done|by left]. }
  unfold save_file in E. rewrite (go_path_spec file path G) in E. cbv zeta in E.
  assert (Ew : save_data e path (c :: t) ai = to_write e path ai (c :: t)) by (unfold save_data, to_write; by destruct ai).
  rewrite Ew in E. set (w := to_write e path ai (c :: t)) in *.
  destruct (en_mkdir e (en_dir e path)) eqn:M; cbn [negb] in E.
  2:{ injection E as <- <- <-. split; [done|]. split; [done|]. split; [done|]. intros s Hs. apply elem_of_list_singleton in Hs as ->. split; [done|by left]. }
  destruct (en_create e path) eqn:Cr; cbn [negb] in E.
  2:{ injection E as <- <- <-. split; [done|]. split; [done|]. split; [done|]. intros s Hs. rewrite !elem_of_cons in Hs. destruct Hs as [-> |[-> |Hs]]; [split; [done|by left]..|by apply elem_of_nil in Hs]. }
  apply pair_equal_spec in E as [E E3]. apply pair_equal_spec in E as [E1 E2]. subst states f' err. set (n := Nat.min _ _). assert (Ln : n <= length w) by lia. split; [|split; [done|split]].
  - rewrite seq_S, map_app. cbn [map Nat.add]. rewrite !app_comm_cons. by rewrite last_snoc.
  - destruct (Nat.ltb _ _) eqn:L; [done|]. intros _. apply Nat.ltb_ge in L. rewrite fs_set_same. by rewrite take_ge by lia.
  - intros s Hs. rewrite !elem_of_cons in Hs. destruct Hs as [-> |[-> |Hs]]; [split; [done|by left]..|].
    apply elem_of_list_fmap in Hs as (k & -> & Hk). apply elem_of_seq in Hk. split; [intros q Hq; by apply fs_set_other|].
    right. exists k. split; [lia|]. apply fs_set_same.
Qed.
(** Save is never atomic: once the directory and the file can be made, there is a
    moment at which the file is empty, whatever it held before. *)
Theorem C47_emptied : forall e f h m a file path autoImport scs lss states f' err,
  elems m (a_scope a) = scs -> all_nodes h scs lss -> go_file file path ->
  ast_save e f h m a file autoImport = Ok (states, f', err) ->
  concat (map (text_at h) lss) <> [] -> en_mkdir e (en_dir e path) = true -> en_create e path = true ->
  exists s, s ∈ states /\ s path = Some [].
Proof.
  intros e f h m a file path ai scs lss states f' err Es A G E N M Cr. unfold ast_save in E. rewrite Es, (save_text_spec h scs lss A) in E. cbn [res_bind] in E.
  injection E as E. destruct (concat (map (text_at h) lss)) as [|c t]; [done|]. unfold save_file in E. rewrite (go_path_spec file path G) in E. cbv zeta in E.
  rewrite M, Cr in E. cbn [negb] in E. apply pair_equal_spec in E as [E _]. apply pair_equal_spec in E as [<- _].
  eexists. split; [do 2 right; apply elem_of_list_fmap; exists 0; split; [reflexivity|apply elem_of_seq; lia]|]. by rewrite fs_set_same.
Qed.
(** The natural claim that a crash leaves the old or the new content fails. *)
Theorem C47_atomic_refuted : exists e f h m a states f' s,
  ast_save e f h m a $"x" false = Ok (states, f', None) /\ s ∈ states /\
  f $"x.go" <> s $"x.go" /\ f' $"x.go" <> s $"x.go".
Proof.
  pose (r := parse_ast ex_env ex_fs src_ord 0 [] [] $"x").
  assert (exists h m a, r = Ok (h, m, inl a)) as (h & m & a & Er) by (eexists _, _, _; vm_compute; reflexivity).
  exists ex_env, ex_fs, h, m, a.
  assert (exists states f', ast_save ex_env ex_fs h m a $"x" false = Ok (states, f', None) /\ exists s, states !! 2 = Some s /\ s $"x.go" = Some [] /\ f' $"x.go" = Some ex_text) as (states & f' & Es & s & Hs & E1 & E2).
  { unfold r in Er. vm_compute in Er. injection Er as <- <- <-. eexists _, _. split; [vm_compute; reflexivity|]. eexists. split; [vm_compute; reflexivity|]. split; vm_compute; reflexivity. }
  exists states, f', s. split; [done|]. split; [by eapply elem_of_list_lookup_2|]. rewrite E1, E2. split; vm_compute; discriminate.
Qed.

(** ** C48 *)
Lemma parse_nodes ord h n text h' scs : any_order ord -> SpecNode.wf h -> parse_scope ord h n text = Ok (h', scs) ->
  exists lss, all_nodes h' (map Some scs) lss.
Proof.
  intros O W E. destruct (C29_tokeniser_terminates ord h text O W) as (h1 & ls & T & _).
  destruct (C34_partition ord h n text h1 ls h' scs O W T E) as (g & gs & _ & _ & F). clear -F.
  induction F as [|sc gr scs gs (E & _ & cur & C & Hd & _) _ [lss IH]]; [exists []; constructor|].
  exists (cur :: lss). constructor; [|done]. exists sc. split; [done|]. split; [done|by exists []].
Qed.
Lemma arr_end (m : arrays) c off len cap : arr_of (m ++ [c]) (mkSlice (length m) off len cap) = c.
Proof. unfold arr_of, arrays in *. cbn [sl_arr]. by rewrite (list_lookup_middle m [] c (length m) eq_refl). Qed.
Theorem C48_parse_ast : forall e f ord spare h m file path, any_order ord -> SpecNode.wf h -> go_file file path ->
  match f path with
  | None => parse_ast e f ord spare h m file = Ok (h, m, inr (if en_not_exist e path then ErrNotExist else ErrOther))
  | Some buf =>
    match (if en_can_open e path then en_format e buf else None) with
    | None => parse_ast e f ord spare h m file = Ok (h, m, inr ErrOther)
    | Some text => exists h' scs, parse_scope ord h 0 text = Ok (h', scs) /\
        ((forall sc, sc ∈ scs -> sc_kind sc <> SPackage) /\ parse_ast e f ord spare h m file = Ok (h', m, inr ErrNoPackage) \/
         (exists sc, sc ∈ scs /\ sc_kind sc = SPackage) /\
         exists m' a, parse_ast e f ord spare h m file = Ok (h', m', inl a) /\ m `prefix_of` m' /\ slice_ok m' (a_scope a) /\
           elems m' (a_scope a) = map Some scs /\ a_file a = file /\ a_dir a = en_dir e file /\ a_name a = en_base e file /\ a_ext a = en_ext e file)
    end
  end.
Proof.
  intros e f ord spare h m file path O W G. unfold parse_ast, read_file. rewrite (go_path_spec file path G). cbv zeta.
  destruct (f path) as [buf|]; [|done]. destruct (en_can_open e path); cbn [negb]; [|done].
  destruct (en_format e buf) as [text|]; [|done].
  destruct (C37_parse_scope_terminates ord h 0 text O W) as (h' & scs & E & _). rewrite E. cbn [res_bind]. exists h', scs. split; [done|].
  destruct (parse_nodes ord h 0 text h' scs O W E) as (lss & A).
  set (cells := map Some scs ++ repeat None spare). set (s := mkSlice (length m) 0 (length (map Some scs)) (length (map Some scs) + spare)).
  assert (Ea : arr_of (m ++ [cells]) s = cells) by apply arr_end.
  assert (Ee : elems (m ++ [cells]) s = map Some scs).
  { unfold elems. rewrite Ea. cbn [sl_off sl_len s]. rewrite drop_0. apply take_app. }
  destruct (C45_package h' (m ++ [cells]) (mkAst [] [] [] [] s) (map Some scs) lss Ee A) as [[N Ep]|(scs1 & sc & scs2 & ls & name & Ec & N & K & SN & Ep & _)];
    unfold ast_package in Ep; cbn [a_scope] in Ep; rewrite Ee in Ep; rewrite Ep; cbn [res_bind].
  - left. split; [|done]. intros sc Hsc. apply N. apply elem_of_list_fmap. by exists sc.
  - right. split.
    { assert (Hin : Some sc ∈ map Some scs) by (rewrite Ec; apply elem_of_app; right; by left).
      apply elem_of_list_fmap in Hin as (sc' & [= <-] & Hin). by exists sc. }
    eexists _, _. split; [reflexivity|]. cbn [a_scope a_file a_dir a_name a_ext]. split; [by eexists|]. split; [|split; [exact Ee|done]].
    split; [unfold s; cbn [sl_len sl_cap]; lia|]. right. fold s. fold cells. rewrite Ea. cbn [sl_arr sl_off sl_cap s]. rewrite app_length. cbn [length].
    unfold cells. rewrite app_length, repeat_length. lia.
Qed.
(** ErrNotExist exactly for files that do not exist. *)
Theorem C48_not_exist : forall e f ord spare h m file path, any_order ord -> SpecNode.wf h -> go_file file path ->
  (exists h' m', parse_ast e f ord spare h m file = Ok (h', m', inr ErrNotExist)) <-> f path = None /\ en_not_exist e path = true.
Proof.
  intros e f ord spare h m file path O W G. pose proof (C48_parse_ast e f ord spare h m file path O W G) as H.
  destruct (f path) as [buf|].
  - split; [|by intros []]. intros (h' & m' & E). exfalso.
    destruct (if en_can_open e path then en_format e buf else None) as [t|]; [|congruence].
    destruct H as (h2 & scs & _ & [[_ E2]|(_ & m2 & a & E2 & _)]); congruence.
  - rewrite H. destruct (en_not_exist e path); split; try done; [by intros _; eexists _, _|intros (? & ? & ?); congruence|by intros []].
Qed.
Example ex_C48 : go_file $"x" $"x.go" /\ go_file $"x.go" $"x.go" /\
  match parse_ast ex_env ex_fs src_ord 3 [] [] $"x" with Ok (h, m, inl a) => a_file a = $"x" /\ ast_package h m a = Ok (inl $"a") | _ => False end.
Proof.
  split; [apply (gf_add $"x"); rewrite <- C20_has_suffix_spec; discriminate|]. split; [apply gf_has, C20_has_suffix_spec; reflexivity|].
  vm_compute. split; reflexivity.
Qed.

(** ** C50 *)
Lemma chain_extend h h' ls : h `prefix_of` h' -> chain h ls -> chain h' ls.
Proof.
  intros [k ->] C. apply (seg_frame h); [rewrite app_length; lia| |done].
  intros l Hl. apply same_links_app. by eapply valid_chain.
Qed.
Lemma same_node_extend h h1 a h2 b : h1 `prefix_of` h2 -> valid h1 b -> same_node h a h1 b -> same_node h a h2 b.
Proof.
  intros [k ->] V (E1 & E2 & E3). unfold same_node, line_of, kind_of, text_of in *. by rewrite !field_app by done.
Qed.
Lemma same_node_from h h1 a h2 b : h `prefix_of` h1 -> valid h a -> same_node h1 a h2 b -> same_node h a h2 b.
Proof.
  intros [k ->] V (E1 & E2 & E3). unfold same_node, line_of, kind_of, text_of in *. by rewrite !field_app in * by done.
Qed.
(** A scope of a copy: same line and kind, nodes with the same payload in the same order. *)
Lemma scope_copy_spec h sc ls : scope_nodes h sc ls ->
  exists h' sc' ls', scope_copy h sc = Ok (h', sc') /\ h `prefix_of` h' /\ sc_line sc' = sc_line sc /\ sc_kind sc' = sc_kind sc /\
    scope_nodes h' sc' ls' /\ Forall2 (fun a b => same_node h a h' b) ls ls' /\ (forall x, x ∈ ls' -> length h <= x < length h') /\ NoDup ls'.
Proof.
  intros [En [pre C]]. unfold scope_copy. rewrite En. destruct ls as [|l ys]; cbn [head hd_error].
  - cbn [copy res_bind]. exists h, (mkScope (sc_line sc) (sc_kind sc) None), []. do 4 (split; [done|]). split; [split; [done|by exists []]|]. split; [by constructor|]. split; [by intros x Hx%elem_of_nil|by constructor].
  - destruct (C10_copy_chain h l pre ys C) as (h' & c & xs' & ys' & E & P & Ll & C' & Fr & _ & Fl & Fy). rewrite E. cbn [res_bind].
    eexists _, _, (c :: ys'). split; [reflexivity|]. split; [done|]. split; [done|]. split; [done|]. split; [split; [done|by exists xs']|].
    split; [by constructor|]. split.
    + intros x Hx. apply Fr. apply elem_of_app. by right.
    + apply chain_NoDup in C'. by apply NoDup_app in C' as (_ & _ & ?).
Qed.
Lemma copy_scopes_spec scs : forall h lss, all_nodes h scs lss ->
  exists h' scs' lss', copy_scopes h scs = Ok (h', scs') /\ h `prefix_of` h' /\
    Forall2 (fun o o' => exists sc sc', o = Some sc /\ o' = Some sc' /\ sc_line sc' = sc_line sc /\ sc_kind sc' = sc_kind sc) scs scs' /\
    all_nodes h' scs' lss' /\ Forall2 (Forall2 (fun a b => same_node h a h' b)) lss lss' /\
    (forall x, x ∈ concat lss' -> length h <= x < length h') /\ NoDup (concat lss').
Proof.
  induction scs as [|o scs IH]; intros h lss A.
  { inversion A; subst. exists h, [], []. do 2 (split; [done|]). do 3 (split; [by constructor|]). split; [by intros x Hx%elem_of_nil|by constructor]. }
  apply Forall2_cons_inv_l in A as (ls & lss' & (sc & -> & SN) & A & ->). cbn [copy_scopes].
  destruct (scope_copy_spec h sc ls SN) as (h1 & sc' & ls1 & E & P & El & Ek & SN' & F & Fr & ND). rewrite E. cbn [res_bind].
  assert (A1 : all_nodes h1 scs lss').
  { eapply Forall2_impl; [exact A|]. intros o ls' (sc0 & -> & En & pre & C). exists sc0. split; [done|]. split; [done|]. exists pre. by eapply chain_extend. }
  destruct (IH h1 lss' A1) as (h2 & scs' & lss2 & E2 & P2 & F2 & A2 & S2 & Fr2 & ND2). rewrite E2. cbn [res_bind].
  assert (L1 : length h <= length h1) by (by apply prefix_length). assert (L2 : length h1 <= length h2) by (by apply prefix_length).
  exists h2, (Some sc' :: scs'), (ls1 :: lss2). split; [done|]. split; [by etrans|]. split; [constructor; [by exists sc, sc'|done]|].
  split; [|split; [|split]].
  - constructor; [|done]. exists sc'. split; [done|]. destruct SN' as [En [pre C]]. split; [done|]. exists pre. by eapply chain_extend.
  - constructor.
    + clear -F P2 Fr. assert (V : forall x, x ∈ ls1 -> valid h1 x) by (intros x Hx; destruct (Fr x Hx); done). clear Fr.
      induction F as [|a b ls ls1 H F IH]; constructor; [|apply IH; intros; apply V; by right].
      eapply same_node_extend; [exact P2|apply V; by left|done].
    + clear -S2 P A. assert (V : forall ls x, ls ∈ lss' -> x ∈ ls -> valid h x).
      { intros ls x Hls Hx. apply elem_of_list_lookup in Hls as [i Hi]. destruct (Forall2_lookup_r _ _ _ _ _ A Hi) as (o & _ & sc & _ & _ & pre & C).
        eapply valid_chain; [exact C|]. apply elem_of_app. by right. }
      clear A. induction S2 as [|a b l1 l2 H S2 IH]; constructor; [|apply IH; intros ls x Hls; apply V; by right].
      assert (Va : forall x, x ∈ a -> valid h x) by (intros x; apply V; by left). clear -H Va P.
      induction H as [|x y a b H0 H IH]; constructor; [|apply IH; intros; apply Va; by right].
      eapply same_node_from; [exact P|apply Va; by left|done].
  - intros x Hx. cbn [concat] in Hx. apply elem_of_app in Hx as [Hx|Hx]; [specialize (Fr x Hx); lia|specialize (Fr2 x Hx); lia].
  - cbn [concat]. apply NoDup_app. split; [done|]. split; [|done]. intros x Hx Hx2. specialize (Fr x Hx). specialize (Fr2 x Hx2). lia.
Qed.
Lemma elems_extend m k s : slice_ok m s -> elems (m ++ k) s = elems m s.
Proof.
  intros [L [Z|[A _]]]; unfold elems.
  - replace (sl_len s) with 0 by lia. by rewrite !take_0.
  - unfold arr_of, arrays in *. by rewrite (lookup_app_l m k).
Qed.
Theorem C50_ast_copy : forall h m a scs lss, slice_ok m (a_scope a) -> elems m (a_scope a) = scs -> all_nodes h scs lss ->
  exists h' m' a' scs' lss', ast_copy h m a = Ok (h', m', a') /\
    a_file a' = a_file a /\ a_dir a' = a_dir a /\ a_name a' = a_name a /\ a_ext a' = a_ext a /\
    elems m' (a_scope a') = scs' /\ slice_ok m' (a_scope a') /\ all_nodes h' scs' lss' /\
    (* scope by scope and node by node the same *)
    Forall2 (fun o o' => exists sc sc', o = Some sc /\ o' = Some sc' /\ sc_line sc' = sc_line sc /\ sc_kind sc' = sc_kind sc) scs scs' /\
    Forall2 (Forall2 (fun l l' => same_node h l h' l')) lss lss' /\
    (* all nodes and the slice are new *)
    (forall x, x ∈ concat lss' -> length h <= x) /\ NoDup (concat lss') /\ sl_arr (a_scope a') = length m /\
    (* and nothing old has changed *)
    h `prefix_of` h' /\ m `prefix_of` m' /\ elems m' (a_scope a) = scs.
Proof.
  intros h m a scs lss So Es A. unfold ast_copy. rewrite Es.
  destruct (copy_scopes_spec scs h lss A) as (h' & scs' & lss' & E & P & F & A' & S' & Fr & ND). rewrite E. cbn [res_bind fresh_slice].
  eexists h', (m ++ [scs']), _, scs', lss'. split; [reflexivity|]. cbn [a_file a_dir a_name a_ext a_scope sl_arr].
  split_and!; try done.
  - unfold elems. rewrite arr_end. cbn [sl_off sl_len]. by rewrite drop_0, take_ge.
  - split; [done|]. right. rewrite arr_end. cbn [sl_arr sl_off sl_cap]. rewrite app_length. cbn [length]. lia.
  - intros x Hx. specialize (Fr x Hx). lia.
  - by eexists.
  - by rewrite elems_extend.
Qed.
Example ex_C50 : match parse_ast ex_env ex_fs src_ord 3 [] [] $"x" with
  | Ok (h, m, inl a) => slice_ok m (a_scope a) /\ match ast_copy h m a with
      | Ok (h', m', a') => length h' = 2 * length h /\ length (elems m' (a_scope a')) = 2 | _ => False end
  | _ => False end.
Proof. vm_compute. split; [split; [lia|right; lia]|split; reflexivity]. Qed.

(** ** C51 *)
Lemma write_cells_length xs : forall a i, length (write_cells a i xs) = length a.
Proof. induction xs as [|x xs IH]; intros a i; [done|]. cbn [write_cells]. by rewrite IH, insert_length. Qed.
Lemma write_cells_in xs : forall a i k, k < length xs -> i + length xs <= length a -> write_cells a i xs !! (i + k) = xs !! k.
Proof.
  induction xs as [|x xs IH]; intros a i k L La; cbn [length] in *; [lia|]. cbn [write_cells]. destruct k as [|k].
  - rewrite Nat.add_0_r. clear IH.
    assert (G : forall xs a i j, j < i -> write_cells a i xs !! j = a !! j).
    { clear. induction xs as [|x xs IH]; intros a i j L; [done|]. cbn [write_cells]. rewrite IH by lia. apply list_lookup_insert_ne. lia. }
    rewrite G by lia. apply list_lookup_insert. lia.
  - replace (i + S k) with (S i + k) by lia. rewrite IH by (rewrite ?insert_length; lia). done.
Qed.
Lemma write_cells_out xs : forall a i j, j < i \/ i + length xs <= j -> write_cells a i xs !! j = a !! j.
Proof.
  induction xs as [|x xs IH]; intros a i j L; [done|]. cbn [write_cells length] in *. rewrite IH by lia. apply list_lookup_insert_ne. lia.
Qed.
Lemma arr_alter (m : arrays) s s' f : sl_arr s < length m ->
  arr_of (alter f (sl_arr s) m) s' = if decide (sl_arr s' = sl_arr s) then f (arr_of m s') else arr_of m s'.
Proof.
  intros L. unfold arr_of, arrays in *. destruct (decide _) as [E|N].
  - rewrite E. rewrite (list_lookup_alter f m (sl_arr s)). destruct (lookup_lt_is_Some_2 m (sl_arr s) L) as [c Hc]. by rewrite Hc.
  - by rewrite (list_lookup_alter_ne f m).
Qed.
Lemma elems_lookup m s i : i < sl_len s -> elems m s !! i = arr_of m s !! (sl_off s + i).
Proof. intros L. unfold elems. by rewrite lookup_take, lookup_drop by done. Qed.
Lemma elems_length m s : slice_ok m s -> length (elems m s) = sl_len s.
Proof.
  intros [L [Z|[A B]]]; unfold elems; rewrite take_length, drop_length; lia.
Qed.
Theorem C51_append_scope : forall grow m a xs m' a', slice_ok m (a_scope a) -> ast_append_scope grow m a xs = (m', a') ->
  elems m' (a_scope a') = elems m (a_scope a) ++ xs /\ slice_ok m' (a_scope a') /\
  a_file a' = a_file a /\ a_dir a' = a_dir a /\ a_name a' = a_name a /\ a_ext a' = a_ext a.
Proof.
  intros grow m a xs m' a' So E. unfold ast_append_scope, append_slice in E. set (s := a_scope a) in *.
  destruct (Nat.leb (sl_len s + length xs) (sl_cap s)) eqn:Lc; injection E as <- <-; cbn [a_scope a_file a_dir a_name a_ext]; (split; [|split; [|done]]).
  - apply Nat.leb_le in Lc. set (s' := mkSlice _ _ _ _). apply list_eq. intros i.
    destruct So as [L B].
    destruct (decide (sl_cap s = 0)) as [Z|NZ].
    { assert (xs = []) as -> by (destruct xs; [done|cbn [length] in Lc; lia]). unfold elems. cbn [sl_len sl_off s' length].
      replace (sl_len s + 0) with 0 by lia. replace (sl_len s) with 0 by lia. by rewrite !take_0. }
    destruct B as [B|[A B]]; [done|].
    assert (Le : length (elems m s) = sl_len s) by (apply elems_length; split; [done|by right]).
    destruct (decide (i < sl_len s + length xs)) as [Hi|Hi].
    + rewrite elems_lookup by done. rewrite (arr_alter m s s' _ A), decide_True by done. cbn [sl_off s'].
      change (arr_of m s') with (arr_of m s). destruct (decide (i < sl_len s)) as [H1|H1].
      * rewrite write_cells_out by lia. rewrite lookup_app_l by lia. by rewrite elems_lookup.
      * rewrite lookup_app_r by lia. replace (sl_off s + i) with (sl_off s + sl_len s + (i - sl_len s)) by lia. rewrite write_cells_in by lia. by rewrite Le.
    + rewrite !lookup_ge_None_2; [done|rewrite app_length; lia|]. unfold elems. rewrite take_length. cbn [sl_len s']. lia.
  - apply Nat.leb_le in Lc. destruct So as [L B]. split; [done|]. cbn [sl_cap sl_arr sl_off]. destruct B as [Z|[A B]]; [by left|]. right.
    split; [unfold arrays in *; by rewrite alter_length|]. rewrite (arr_alter m s _ _ A), decide_True by done. by rewrite write_cells_length.
  - unfold elems at 1. rewrite arr_end. cbn [sl_off sl_len]. rewrite drop_0, app_assoc, take_app_alt; [done|]. rewrite app_length, elems_length by done. done.
  - split; [cbn [sl_len sl_cap]; lia|]. right. rewrite arr_end. cbn [sl_arr sl_off sl_cap]. rewrite !app_length, repeat_length, elems_length by done. cbn [length]. lia.
Qed.
(** No other slice sees the change if the array is full, or if the cells written
    are not among its elements. *)
Theorem C51_append_apart : forall grow m a xs m' a' s', slice_ok m (a_scope a) -> slice_ok m s' ->
  ast_append_scope grow m a xs = (m', a') ->
  sl_cap (a_scope a) < sl_len (a_scope a) + length xs \/ apart (a_scope a) (length xs) s' ->
  elems m' s' = elems m s'.
Proof.
  intros grow m a xs m' a' s' So So' E D. unfold ast_append_scope, append_slice in E. set (s := a_scope a) in *.
  destruct (Nat.leb (sl_len s + length xs) (sl_cap s)) eqn:Lc; injection E as <- <-.
  - apply Nat.leb_le in Lc. destruct D as [D|D]; [lia|]. destruct So as [L B].
    destruct (decide (sl_cap s = 0)) as [Z|NZ].
    { assert (xs = []) as -> by (destruct xs; [done|cbn [length] in Lc; lia]). cbn [write_cells]. f_equal. apply list_alter_id. done. }
    destruct B as [B|[A B]]; [done|]. apply list_eq. intros i. destruct (decide (i < sl_len s')) as [Hi|Hi].
    + rewrite !elems_lookup by done. rewrite (arr_alter m s s' _ A). destruct (decide _) as [Ea|Na]; [|done].
      apply write_cells_out. destruct D as [D|[D|[D|[D|D]]]]; [done|lia..].
    + rewrite !lookup_ge_None_2; [done|..]; unfold elems; rewrite take_length; lia.
  - by apply elems_extend.
Qed.
(** SetScope leaves the receiver alone and uses exactly the given slice. *)
Theorem C51_set_scope : forall m a s, elems m (a_scope (ast_set_scope a s)) = elems m s /\
  a_file (ast_set_scope a s) = a_file a /\ a_dir (ast_set_scope a s) = a_dir a /\
  a_name (ast_set_scope a s) = a_name a /\ a_ext (ast_set_scope a s) = a_ext a.
Proof. done. Qed.
(** A copy never shares: appending to either leaves the other alone. *)
Theorem C51_copy_apart : forall grow h m a h' m' a' xs m'' a'' scs lss, slice_ok m (a_scope a) -> elems m (a_scope a) = scs -> all_nodes h scs lss ->
  ast_copy h m a = Ok (h', m', a') ->
  (ast_append_scope grow m' a xs = (m'', a'') -> elems m'' (a_scope a') = elems m' (a_scope a')) /\
  (ast_append_scope grow m' a' xs = (m'', a'') -> elems m'' (a_scope a) = elems m' (a_scope a)).
Proof.
  intros grow h m a h' m' a' xs m'' a'' scs lss So Es A E.
  destruct (C50_ast_copy h m a scs lss So Es A) as (h2 & m2 & a2 & scs' & lss' & E2 & _ & _ & _ & _ & _ & So2 & _ & _ & _ & _ & _ & Sa & _ & [k Pm] & _).
  rewrite E in E2. injection E2 as <- <- <-.
  assert (So' : slice_ok m' (a_scope a)).
  { destruct So as [L [Z|[A1 A2]]]; (split; [done|]); [by left|]. right. rewrite Pm. split; [rewrite app_length; lia|].
    unfold arr_of, arrays in *. by rewrite (lookup_app_l m k). }
  split; intros Ea.
  - apply (C51_append_apart _ _ _ _ _ _ _ So' So2 Ea). destruct So as [L [Z|[A1 A2]]]; [|right; left; lia].
    destruct xs as [|x xs]; [right; do 3 right; by left|left; cbn [length]; lia].
  - apply (C51_append_apart _ _ _ _ _ _ _ So2 So' Ea). destruct So as [L [Z|[A1 A2]]]; [right; do 4 right; lia|right; left; lia].
Qed.
Example ex_C51 : let m := [[Some (mkScope 0 SPackage None); None]] in let a := mkAst [] [] [] [] (mkSlice 0 0 1 2) in
  let x := Some (mkScope 1 SFunc None) in
  slice_ok m (a_scope a) /\
  elems (fst (ast_append_scope S m a [x])) (a_scope (snd (ast_append_scope S m a [x]))) = [Some (mkScope 0 SPackage None); x] /\
  elems (fst (ast_append_scope S m a [x; x])) (a_scope (snd (ast_append_scope S m a [x; x]))) = [Some (mkScope 0 SPackage None); x; x].
Proof. cbv zeta. split; [split; [cbn; lia|right; vm_compute; lia]|]. split; vm_compute; reflexivity. Qed.
(** The natural claim fails: two asts made by SetScope from one slice with spare
    capacity append into the same cell. *)
Theorem C51_isolated_refuted : exists m s m1 m2 (a b a' b' : ast) x y,
  slice_ok m s /\ a = ast_set_scope (mkAst [] [] [] [] s) s /\ b = ast_set_scope a s /\ x <> y /\
  ast_append_scope S m a [x] = (m1, a') /\ ast_append_scope S m1 b [y] = (m2, b') /\
  elems m1 (a_scope a') = [x] /\ elems m2 (a_scope a') = [y].
Proof.
  exists [[None]], (mkSlice 0 0 0 1). eexists _, _, _, _, _, _, (Some (mkScope 1 SFunc None)), (Some (mkScope 2 SType None)).
  split; [split; [cbn; lia|right; vm_compute; lia]|]. split; [reflexivity|]. split; [reflexivity|]. split; [discriminate|].
  split; [vm_compute; reflexivity|]. split; [vm_compute; reflexivity|]. split; vm_compute; reflexivity.
Qed.

(** ** C52 *)
Lemma digit_value_digit n : (n < 10)%N -> digit_value (digit n) = n /\ digit n ∈ digits.
Proof.
  intros L. assert (A : forallb (fun i => (digit_value (digit (N.of_nat i)) =? N.of_nat i)%N && bool_decide (digit (N.of_nat i) ∈ digits)) (seq 0 10) = true) by (vm_compute; reflexivity).
  rewrite forallb_forall in A. specialize (A (N.to_nat n)). rewrite N2Nat.id in A.
  assert (H : In (N.to_nat n) (seq 0 10)) by (apply in_seq; lia). apply A in H. apply andb_true_iff in H as [H1 H2].
  apply N.eqb_eq in H1. apply bool_decide_eq_true in H2. done.
Qed.
Definition hval (acc : N) (s : str) : N := fold_left (fun a c => 10 * a + digit_value c)%N s acc.
Lemma dec_fuel_value f : forall n acc, (n < 2 ^ N.of_nat f)%N -> f <> 0 ->
  hval 0 (dec_fuel f n acc) = hval n acc /\ (Forall (fun c => c ∈ digits) acc -> Forall (fun c => c ∈ digits) (dec_fuel f n acc)) /\ dec_fuel f n acc <> [].
Proof.
  induction f as [|f IH]; intros n acc L Nz; [done|]. cbn [dec_fuel].
  destruct (digit_value_digit (n mod 10)) as [V D]; [apply N.mod_lt; lia|].
  pose proof (N.div_mod n 10 ltac:(lia)) as DM.
  destruct (n / 10 =? 0)%N eqn:E.
  - apply N.eqb_eq in E. split_and!; [|intros F; by constructor|done]. cbn [hval fold_left]. unfold hval. cbn [fold_left]. rewrite V. f_equal. lia.
  - apply N.eqb_neq in E. assert (Lt : (n / 10 < 2 ^ N.of_nat f)%N).
    { rewrite Nat2N.inj_succ, N.pow_succ_r' in L. apply N.div_lt_upper_bound; [lia|]. revert L. generalize (2 ^ N.of_nat f)%N. intros q L. lia. }
    assert (Nf : f <> 0). { intros ->. change (2 ^ N.of_nat 0)%N with 1%N in Lt. revert E Lt. generalize (n / 10)%N. lia. }
    destruct (IH (n / 10)%N (digit (n mod 10) :: acc) Lt Nf) as (H1 & H2 & H3). split_and!; [|intros F; apply H2; by constructor|done].
    rewrite H1. unfold hval. cbn [fold_left]. rewrite V. f_equal. lia.
Qed.
Lemma dec_N_value n : is_number (dec_N n) /\ digits_value (dec_N n) = n.
Proof.
  unfold dec_N. destruct (dec_fuel_value (S (N.to_nat (N.log2 n))) n []) as (H1 & H2 & H3); [|done|].
  - rewrite Nat2N.inj_succ, N2Nat.id. destruct (decide (n = 0)%N) as [-> |Nz]; [reflexivity|]. apply N.log2_spec. lia.
  - split; [|exact H1]. split; [done|]. specialize (H2 (Forall_nil_2 _)). by rewrite Forall_forall in H2.
Qed.
Lemma dec_Z_denotes z : denotes (dec_Z z) z.
Proof.
  unfold dec_Z. destruct (dec_N_value (Z.abs_N z)) as [I V]. destruct (z <? 0)%Z eqn:E.
  - right. eexists. split; [reflexivity|]. split; [done|]. rewrite V. lia.
  - left. split; [done|]. rewrite V. lia.
Qed.
Lemma denotes_unique s z z' : denotes s z -> denotes s z' -> z = z'.
Proof.
  assert (N : forall t, ~ is_number ("-"%char :: t)).
  { intros t [_ H]. specialize (H "-"%char ltac:(by left)). apply (proj2 (bool_decide_eq_true ("-"%char ∈ digits))) in H. vm_compute in H. discriminate H. }
  intros [[I ->]|(t & -> & I & ->)] [[I' ->]|(t' & E' & I' & ->)]; [done|subst; by apply N in I|by apply N in I'|].
  by injection E' as ->.
Qed.
Lemma denotes_no_space s z : denotes s z -> c_sp ∉ s.
Proof.
  assert (D : c_sp ∉ digits) by (apply (proj1 (bool_decide_eq_false (c_sp ∈ digits))); reflexivity).
  intros [[[_ H] _]|(t & -> & [_ H] & _)] Hin; [by apply D, H|]. apply elem_of_cons in Hin as [Hin|Hin]; [discriminate Hin|by apply D, H].
Qed.
(** A description shows at most one line number. *)
Theorem C52_shown_line_unique : forall d z z', shows_line d z -> shows_line d z' -> z = z'.
Proof.
  intros d z z' (s & r & -> & D) (s' & r' & E & D'). pose proof (denotes_no_space _ _ D) as N. pose proof (denotes_no_space _ _ D') as N'.
  assert (s = s') as ->; [|by eapply denotes_unique].
  clear D D'. revert s' E N N'. induction s as [|c s IH]; intros [|c' s'] E N N'; [done|..]; cbn [app] in E.
  - injection E as <- _. destruct N'. by left.
  - injection E as -> _. destruct N. by left.
  - injection E as <- E. f_equal. apply IH; [done|..]; intros H; [apply N|apply N']; by right.
Qed.
Theorem C52_node_description : forall h l, shows_line (description h (Some l)) (line_of h (Some l) + 1).
Proof. intros h l. eexists _, _. split; [|apply dec_Z_denotes]. unfold description. f_equal. Qed.
(** A scope's description is off by one, always. *)
Theorem C52_scope_description : forall sc, shows_line (scope_description (Some sc)) (scope_line (Some sc) + 1).
Proof. intros sc. eexists _, _. split; [|apply dec_Z_denotes]. unfold scope_description. f_equal. Qed.
(** A scope made for the (zero-based) line n is on line n + 1 and is described on line n + 2. *)
Theorem C52_new_scope : forall n k p, scope_line (Some (mkScope n k p)) = (n + 1)%Z /\ shows_line (scope_description (Some (mkScope n k p))) (n + 2).
Proof.
  intros n k p. split; [done|]. pose proof (C52_scope_description (mkScope n k p)) as H. cbn [scope_line sc_line] in H. by replace (n + 2)%Z with (n + 1 + 1)%Z by lia.
Qed.
Theorem C52_scope_description_refuted : forall sc, ~ shows_line (scope_description (Some sc)) (scope_line (Some sc)).
Proof.
  intros sc H. pose proof (C52_shown_line_unique _ _ _ H (C52_scope_description sc)) as E. lia.
Qed.
Example ex_C52 : scope_line (Some (mkScope 0 SFunc None)) = 1%Z /\ scope_description (Some (mkScope 0 SFunc None)) = $"2 .... *Scope.Func" /\
  description [mkNode 9 KRaw $"x" None None] (Some 0) = $"10 .... x .... *Node.Raw".
Proof. vm_compute. repeat split. Qed.

(** ** C53 *)
(** IterScope calls the callback on the scopes in order until it returns false. *)
Theorem C53_iter_scope : forall (A : Type) (fn : option scope -> A -> A * bool) scs a,
  exists xs ys, scs = xs ++ ys /\
    iter_scope scs fn a = fold_left (fun a sc => fst (fn sc a)) xs a /\
    (forall us x vs, xs = us ++ x :: vs -> vs <> [] -> snd (fn x (fold_left (fun a sc => fst (fn sc a)) us a)) = true) /\
    (ys <> [] -> exists us x, xs = us ++ [x] /\ snd (fn x (fold_left (fun a sc => fst (fn sc a)) us a)) = false).
Proof.
  intros A fn scs. induction scs as [|sc scs IH]; intros a.
  { exists [], []. split; [done|]. split; [done|]. split; [intros us x vs E; by destruct us|done]. }
  cbn [iter_scope]. destruct (fn sc a) as [a' [|]] eqn:E.
  - destruct (IH a') as (xs & ys & -> & E1 & E2 & E3). exists (sc :: xs), ys. split; [done|]. cbn [fold_left]. rewrite E. cbn [fst].
    split; [done|]. split.
    + intros [|u us] x vs Eq Nv; injection Eq as -> Eq; [cbn [fold_left]; by rewrite E|].
      cbn [fold_left]. rewrite E. cbn [fst]. by apply (E2 us x vs).
    + intros Ny. destruct (E3 Ny) as (us & x & -> & Ex). exists (sc :: us), x. split; [done|]. cbn [fold_left]. by rewrite E.
  - exists [sc], scs. split; [done|]. cbn [fold_left]. rewrite E. split; [done|]. split.
    + intros [|u us] x vs Eq Nv; injection Eq as -> Eq; [by subst|]. by destruct us.
    + intros _. exists [], sc. split; [done|]. cbn [fold_left]. by rewrite E.
Qed.
Example ex_C53 : iter_scope [Some (mkScope 0 SPackage None); Some (mkScope 1 SFunc None); Some (mkScope 2 SType None)]
  (fun sc n => (S n, negb (str_eqb (scope_kind_of sc) SFunc))) 0 = 2.
Proof. reflexivity. Qed.
(** Ast.Description: for each scope its description and those of its nodes, in order. *)
Theorem C53_ast_description : forall h scs lss, Forall2 (fun sc ls => scope_nodes h sc ls) scs lss ->
  ast_description h (map Some scs) =
  Ok (concat (map (fun p : scope * list loc => scope_description (Some (fst p)) ++ concat (map (fun l => description h (Some l)) (snd p))) (zip scs lss))).
Proof.
  intros h scs lss A. induction A as [|sc ls scs lss SN _ IH]; [done|]. cbn [map ast_description zip zip_with].
  rewrite (scan_nodes h sc ls _ _ SN), scan_collect. cbn [res_bind]. rewrite IH. cbn [res_bind fst snd concat map]. by rewrite app_nil_l, app_assoc.
Qed.
