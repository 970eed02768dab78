(** C41-C44: what the getters of a scope find. *)
From Verif Require Import SpecAst ResetSpec P_Pure P_Lex P_Node P_Scope HeaderProofs PrefixProofs P_Ast.

(** ** C44: the getters, on any scope *)
Lemma scan_first {A} h k (f : loc -> A) ls : forall a0 : A,
  let r := scan_list (fun l v => if kind_eqb (kind_of h (Some l)) k then ((f l, true), false) else (v, true)) ls (a0, false) in
  (exists l, first_of_kind h ls k l /\ fst r = (f l, true)) \/ none_of_kind h ls k /\ fst r = (a0, false).
Proof.
  cbv zeta. induction ls as [|l ls IH]; intros a0; cbn [scan_list]; [right; split; [intros x Hx; by apply elem_of_nil in Hx|done]|].
  destruct (kind_eqb (kind_of h (Some l)) k) eqn:E.
  - left. exists l. split; [|done]. exists [], ls. apply kind_eqb_true in E. split; [done|]. split; [done|]. intros x Hx. by apply elem_of_nil in Hx.
  - apply kind_eqb_false in E. destruct (IH a0) as [(l' & (xs & ys & -> & K & N) & ->)|[N ->]].
    + left. exists l'. split; [|done]. exists (l :: xs), ys. split; [done|]. split; [done|]. intros x [->|Hx]%elem_of_cons; auto.
    + right. split; [|done]. intros x [->|Hx]%elem_of_cons; auto.
Qed.
Lemma scan_last h k ls : forall v : str * bool,
  let r := scan_list (last_until h k) ls v in
  (exists l, first_of_kind h ls k l /\ fst r = (text_of h (Some l), true)) \/
  none_of_kind h ls k /\ fst r = match last ls with Some l => (text_of h (Some l), false) | None => v end.
Proof.
  cbv zeta. induction ls as [|l ls IH]; intros v; cbn [scan_list]; [right; split; [intros x Hx; by apply elem_of_nil in Hx|done]|]. unfold last_until at 1 3.
  destruct (kind_eqb (kind_of h (Some l)) k) eqn:E; cbn [negb].
  - left. exists l. split; [|done]. exists [], ls. apply kind_eqb_true in E. split; [done|]. split; [done|]. intros x Hx. by apply elem_of_nil in Hx.
  - apply kind_eqb_false in E. destruct (IH (text_of h (Some l), false)) as [(l' & (xs & ys & -> & K & N) & ->)|[N ->]].
    + left. exists l'. split; [|done]. exists (l :: xs), ys. split; [done|]. split; [done|]. intros x [->|Hx]%elem_of_cons; auto.
    + right. split; [intros x [->|Hx]%elem_of_cons; auto|destruct ls as [|y ls]; [reflexivity|]; destruct (proj2 (last_is_Some (y :: ls)) ltac:(done)) as [z Ez]; change (last (l :: y :: ls)) with (last (y :: ls)); by rewrite Ez].
Qed.
Lemma scan_flag h k ls : forall b,
  let r := scan_list (fun l (_ : bool) => let b := kind_eqb (kind_of h (Some l)) k in (b, negb b)) ls b in
  (exists l, l ∈ ls /\ kind_of h (Some l) = k) /\ fst r = true \/ none_of_kind h ls k /\ fst r = match ls with [] => b | _ => false end.
Proof.
  cbv zeta. induction ls as [|l ls IH]; intros b; cbn [scan_list]; [right; split; [intros x Hx; by apply elem_of_nil in Hx|done]|].
  destruct (kind_eqb (kind_of h (Some l)) k) eqn:E; cbn [negb].
  - left. split; [|done]. exists l. apply kind_eqb_true in E. split; [by left|done].
  - apply kind_eqb_false in E. destruct (IH false) as [[(l' & Hl & K) ->]|[N ->]].
    + left. split; [|done]. exists l'. split; [by right|done].
    + right. split; [intros x [->|Hx]%elem_of_cons; auto|destruct ls; reflexivity].
Qed.
Lemma str_eqb_refl s : str_eqb s s = true. Proof. by apply bool_decide_eq_true. Qed.
Lemma str_eqb_ne s t : s <> t -> str_eqb s t = false. Proof. intros. by apply bool_decide_eq_false. Qed.

(** Wrong scope kind: nothing is found, whatever the nodes. *)
Theorem C44_guarded : forall h sc,
  (sc_kind sc <> SFunc -> get_func_name h sc = Ok ([], false) /\ get_method_name h sc = Ok ([], false) /\ get_method_receiver h sc = Ok ([], false)) /\
  (sc_kind sc <> SType -> get_type_name h sc = Ok ([], false) /\ get_struct_name h sc = Ok ([], false) /\ get_interface_name h sc = Ok ([], false)).
Proof.
  intros h sc. split; intros N; apply str_eqb_ne in N;
    unfold get_func_name, get_method_name, get_method_receiver, get_type_name, get_struct_name, get_interface_name, get_kinded_name; by rewrite N.
Qed.
(** Function names and receivers: the first node of the right kind. *)
Theorem C44_func_name : forall h sc ls, sc_kind sc = SFunc -> scope_nodes h sc ls ->
  (exists l, first_of_kind h ls KFuncName l /\ get_func_name h sc = Ok (text_of h (Some l), true)) \/
  none_of_kind h ls KFuncName /\ get_func_name h sc = Ok ([], false).
Proof.
  intros h sc ls Ek SN. unfold get_func_name. rewrite Ek, str_eqb_refl, (scan_nodes h sc ls _ _ SN). cbn [negb res_bind].
  destruct (scan_first h KFuncName (fun l => text_of h (Some l)) ls []) as [(l & F & ->)|[F ->]]; [left; by exists l|by right].
Qed.
Lemma get_last h sc ls k : scope_nodes h sc ls ->
  (exists l, first_of_kind h ls k l /\ get_last_until h k sc = Ok (text_of h (Some l), true)) \/
  none_of_kind h ls k /\ get_last_until h k sc = Ok (last_text h ls, false).
Proof.
  intros SN. unfold get_last_until. rewrite (scan_nodes h sc ls _ _ SN). cbn [res_bind].
  destruct (scan_last h k ls ([], false)) as [(l & F & ->)|[F ->]]; [left; by exists l|]. right. split; [done|].
  unfold last_text. by destruct (last ls).
Qed.
Theorem C44_method_receiver : forall h sc ls, sc_kind sc = SFunc -> scope_nodes h sc ls ->
  (exists l, first_of_kind h ls KMethodReceiverType l /\ get_method_receiver h sc = Ok (text_of h (Some l), true)) \/
  none_of_kind h ls KMethodReceiverType /\ get_method_receiver h sc = Ok (last_text h ls, false).
Proof. intros h sc ls Ek SN. unfold get_method_receiver. rewrite Ek, str_eqb_refl. by apply get_last. Qed.
(** A method name needs a receiver. *)
Theorem C44_method_name : forall h sc ls, sc_kind sc = SFunc -> scope_nodes h sc ls ->
  none_of_kind h ls KMethodReceiverType /\ get_method_name h sc = Ok ([], false) \/
  (exists r, first_of_kind h ls KMethodReceiverType r) /\
  ((exists l, first_of_kind h ls KFuncName l /\ get_method_name h sc = Ok (text_of h (Some l), true)) \/
   none_of_kind h ls KFuncName /\ get_method_name h sc = Ok (last_text h ls, false)).
Proof.
  intros h sc ls Ek SN. unfold get_method_name. rewrite Ek, str_eqb_refl. cbn [negb].
  destruct (C44_method_receiver h sc ls Ek SN) as [(r & F & ->)|[F ->]]; cbn [res_bind snd negb]; [|by left].
  right. split; [by exists r|]. by apply get_last.
Qed.
Theorem C44_type_name : forall h sc ls, sc_kind sc = SType -> scope_nodes h sc ls ->
  (exists l, first_of_kind h ls KTypeName l /\ get_type_name h sc = Ok (text_of h (Some l), true)) \/
  none_of_kind h ls KTypeName /\ get_type_name h sc = Ok (last_text h ls, false).
Proof. intros h sc ls Ek SN. unfold get_type_name. rewrite Ek, str_eqb_refl. by apply get_last. Qed.
(** Struct and interface names: the type's name, and whether the keyword occurs
    anywhere in the scope. *)
Theorem C44_struct_name : forall h sc ls, sc_kind sc = SType -> scope_nodes h sc ls -> exists name found,
  get_type_name h sc = Ok (name, found) /\
  ((exists l, l ∈ ls /\ kind_of h (Some l) = KStruct) /\ get_struct_name h sc = Ok (name, true) \/
   none_of_kind h ls KStruct /\ get_struct_name h sc = Ok (name, false)).
Proof.
  intros h sc ls Ek SN. unfold get_struct_name, get_kinded_name. rewrite Ek, str_eqb_refl, (scan_nodes h sc ls _ _ SN). cbn [negb res_bind].
  destruct (C44_type_name h sc ls Ek SN) as [(l & F & ->)|[F ->]]; eexists _, _; (split; [reflexivity|]); cbn [res_bind fst];
  (pose proof (scan_flag h KStruct ls false) as Hf; cbv zeta in Hf |- *; destruct Hf as [[X ->]|[X ->]]; [by left|right; split; [done|by destruct ls]]).
Qed.
Theorem C44_interface_name : forall h sc ls, sc_kind sc = SType -> scope_nodes h sc ls -> exists name found,
  get_type_name h sc = Ok (name, found) /\
  ((exists l, l ∈ ls /\ kind_of h (Some l) = KInterface) /\ get_interface_name h sc = Ok (name, true) \/
   none_of_kind h ls KInterface /\ get_interface_name h sc = Ok (name, false)).
Proof.
  intros h sc ls Ek SN. unfold get_interface_name, get_kinded_name. rewrite Ek, str_eqb_refl, (scan_nodes h sc ls _ _ SN). cbn [negb res_bind].
  destruct (C44_type_name h sc ls Ek SN) as [(l & F & ->)|[F ->]]; eexists _, _; (split; [reflexivity|]); cbn [res_bind fst];
  (pose proof (scan_flag h KInterface ls false) as Hf; cbv zeta in Hf |- *; destruct Hf as [[X ->]|[X ->]]; [by left|right; split; [done|by destruct ls]]).
Qed.
Definition nl : str := [c_nl].
(** The natural claim that GetStructName is true only for struct declarations,
    and that a getter without result returns "", fail. *)
Theorem C44_refuted :
  match parse_scope src_ord [] 0 ($"type M map[string]struct{}" ++ nl) with
  | Ok (h', sc :: _) => get_struct_name h' sc = Ok ($"M", true) | _ => False end /\
  match parse_scope src_ord [] 0 ($"func f() int" ++ nl) with
  | Ok (h', sc :: _) => get_method_receiver h' sc = Ok (nl, false) | _ => False end.
Proof. vm_compute. split; reflexivity. Qed.

(** ** Reading names off a refined scope *)
Lemma pre_init h g ks : SpecNode.wf h -> chain h g -> (forall i l k, g !! i = Some l -> ks !! i = Some k -> kind_of h (Some l) = k) -> pre h g ks h.
Proof.
  intros W C H i l k El Ek. split; [by eapply H|]. split; [done|]. intros _.
  apply elem_of_list_split_length in El as (xs & ys & -> & ->). rewrite (chain_next h xs l ys C).
  rewrite lookup_app_r by lia. replace (S (length xs) - length xs) with 1 by lia. by destruct ys.
Qed.
(** The beginning of a refined scope. *)
Lemma pre_prefix h0 g ks h cur : SpecNode.wf h0 -> chain h0 g -> pre h0 g ks h -> chain h cur -> head cur = head g -> forall i l k,
  g !! i = Some l -> ks !! i = Some k -> cur !! i = Some l.
Proof.
  intros W C P Cc Hd. induction i as [|i IH]; intros l k El Ek.
  { destruct cur, g; try done. injection Hd as ->. done. }
  assert (Li : i < length g). { apply lookup_lt_Some in El. lia. }
  destruct (lookup_lt_is_Some_2 g i Li) as [y Ey].
  assert (Lk : i < length ks). { apply lookup_lt_Some in Ek. lia. }
  destruct (lookup_lt_is_Some_2 ks i Lk) as [k' Ek']. specialize (IH y k' Ey Ek').
  destruct (P i y k' Ey Ek') as (_ & _ & N). apply lookup_lt_Some in Ek. specialize (N Ek). rewrite El in N.
  apply elem_of_list_split_length in IH as (xs & ys & -> & Ei). rewrite (chain_next h xs y ys Cc) in N.
  rewrite lookup_app_r by lia. replace (S i - length xs) with 1 by lia. by destruct ys.
Qed.
Definition runs (okr : bool) (ks ks' : list kind) (g : list loc) (bad : list kind -> Prop) : Prop :=
  forall h1, SpecNode.wf h1 -> chain h1 g -> Kp h1 g okr ks h1 -> ~ bad (map (fun l => kind_of h1 (Some l)) g) ->
    wp (reset_kind (reset_fuel h1) (head g)) (fun _ s' => base h1 g (s_heap s') /\ Kp h1 g okr ks' (s_heap s')) (mkSt h1 []).
Lemma refined_result h2 h' g okr ks ks' bad : runs okr ks ks' g bad -> refined_from h2 h' g ->
  (forall i l k, g !! i = Some l -> ks !! i = Some k -> kind_of h2 (Some l) = k) -> (okr = false -> no_receivers g h2) ->
  ~ bad (map (fun l => kind_of h2 (Some l)) g) ->
  exists cur, chain h' cur /\ head cur = head g /\ cur `sublist_of` g /\
    (forall i l k, g !! i = Some l -> ks' !! i = Some k -> cur !! i = Some l /\ kind_of h' (Some l) = k /\ text_of h' (Some l) = text_of h2 (Some l)) /\
    (okr = false -> no_receivers g h').
Proof.
  intros R [(h1 & s & r & W1 & L1 & C1 & E1 & Er & B1 & Eg & Ll)] Hk Hr Hb.
  assert (Fl : forall (A : Type) (d : A) f l, l ∈ g -> field d f h1 (Some l) = field d f h2 (Some l)) by (intros; apply field_ext; by apply E1).
  assert (Fl' : forall (A : Type) (d : A) f l, l ∈ g -> field d f h' (Some l) = field d f (s_heap s) (Some l)) by (intros; apply field_ext; by apply Eg).
  assert (K1 : Kp h1 g okr ks h1).
  { split.
    - apply pre_init; [done|done|]. intros i l k El Ek. unfold kind_of. rewrite Fl by (by eapply elem_of_list_lookup_2). by eapply Hk.
    - intros Eo l Hl. unfold kind_of. rewrite Fl by done. by apply Hr. }
  assert (Hb1 : ~ bad (map (fun l => kind_of h1 (Some l)) g)).
  { replace (map (fun l => kind_of h1 (Some l)) g) with (map (fun l => kind_of h2 (Some l)) g); [done|].
    apply map_ext_in. intros l Hl. unfold kind_of. symmetry. apply Fl. by apply elem_of_list_In. }
  specialize (R h1 W1 C1 K1 Hb1). unfold wp in R. rewrite Er in R. destruct R as [_ [P N]].
  destruct (base_chain h1 g W1 C1 (s_heap s) B1) as (cur & C & Sub & Hd). exists cur.
  split; [eapply chain_same_nodes; [exact Ll| |exact C]; intros l Hl; apply Eg; by eapply sublist_in|]. split; [done|]. split; [done|].
  split.
  - intros i l k El Ek. assert (Hl : l ∈ g) by (by eapply elem_of_list_lookup_2).
    destruct (P i l k El Ek) as (P1 & P2 & _). split; [exact (pre_prefix h1 g ks' (s_heap s) cur W1 C1 P C Hd i l k El Ek)|].
    split; [by rewrite <- P1; unfold kind_of; apply Fl'|]. transitivity (text_of (s_heap s) (Some l)); [unfold text_of; by apply Fl'|].
    rewrite P2. unfold text_of. by apply Fl.
  - intros Eo l Hl. unfold kind_of. rewrite Fl' by done. by apply N.
Qed.
Lemma fuel_enough h (g : list loc) : chain h g -> 8 * length g <= reset_fuel h.
Proof. intros C. pose proof (NoDup_bound g (length h) (chain_NoDup h g C) (fun x Hx => valid_chain h g x C Hx)). unfold reset_fuel. lia. Qed.
Definition never (_ : list kind) : Prop := False.
Lemma run_func x0 x1 x2 tl okr : runs okr [KFunc; KSpace; KRaw] [KFunc; KSpace; KFuncName] (x0 :: x1 :: x2 :: tl) never.
Proof.
  intros h1 W C K _. unfold reset_kind. apply wp_bind, wp_get_kind. cbn [head hd_error s_heap]. rewrite (pre_kind h1 _ _ _ 0 x0 KFunc (proj1 K) eq_refl eq_refl). kred.
  apply (fr_func h1 _ W C okr x0 x1 x2 tl eq_refl); [by apply base_init|done|by apply fuel_enough].
Qed.
Lemma chain_nseg h x g : chain h (x :: g) -> nseg h (Some x) (x :: g) None.
Proof.
  intros C. assert (G : forall g xs x, chain h (xs ++ x :: g) -> nseg h (Some x) (x :: g) None); [|by apply (G g [])].
  clear. induction g as [|y g IH]; intros xs x C; cbn [nseg]; (split; [done|]); rewrite (chain_next h xs x _ C); [done|].
  apply (IH (xs ++ [x])). by rewrite <- app_assoc.
Qed.
Lemma run_mth x0 x1 x2 x3 x4 x5 x6 x7 x8 tl : runs true [KFunc; KSpace; KParenL; KRaw; KSpace; KRaw; KParenR; KSpace; KRaw]
  [KFunc; KSpace; KParenL; KMethodReceiverName; KSpace; KMethodReceiverType; KParenR; KSpace; KFuncName] (x0 :: x1 :: x2 :: x3 :: x4 :: x5 :: x6 :: x7 :: x8 :: tl) called_at_once.
Proof.
  intros h1 W C K Nb. unfold reset_kind. apply wp_bind, wp_get_kind. cbn [head hd_error s_heap]. rewrite (pre_kind h1 _ _ _ 0 x0 KFunc (proj1 K) eq_refl eq_refl). kred.
  eapply (fr_mth h1 _ W C x0 x1 x2 x3 x4 x5 x6 x7 x8 tl eq_refl); [by apply base_init|done|by apply fuel_enough|by apply chain_nseg|done].
Qed.
Lemma run_mtu x0 x1 x2 x3 x4 x5 x6 tl : runs true [KFunc; KSpace; KParenL; KRaw; KParenR; KSpace; KRaw]
  [KFunc; KSpace; KParenL; KMethodReceiverType; KParenR; KSpace; KFuncName] (x0 :: x1 :: x2 :: x3 :: x4 :: x5 :: x6 :: tl) called_at_once.
Proof.
  intros h1 W C K Nb. unfold reset_kind. apply wp_bind, wp_get_kind. cbn [head hd_error s_heap]. rewrite (pre_kind h1 _ _ _ 0 x0 KFunc (proj1 K) eq_refl eq_refl). kred.
  eapply (fr_mtu h1 _ W C x0 x1 x2 x3 x4 x5 x6 tl eq_refl); [by apply base_init|done|by apply fuel_enough|by apply chain_nseg|done].
Qed.
Lemma run_type x0 x1 x2 tl okr : runs okr [KType; KSpace; KRaw] [KType; KSpace; KTypeName] (x0 :: x1 :: x2 :: tl) never.
Proof.
  intros h1 W C K _. unfold reset_kind. apply wp_bind, wp_get_kind. cbn [head hd_error s_heap]. rewrite (pre_kind h1 _ _ _ 0 x0 KType (proj1 K) eq_refl eq_refl). kred.
  apply (ty_name h1 _ W C okr x0 x1 x2 tl eq_refl); [by apply base_init|done|by apply fuel_enough].
Qed.
Lemma run_keyword k x0 x1 x2 x3 x4 tl okr : k = KStruct \/ k = KInterface ->
  runs okr [KType; KSpace; KRaw; KSpace; k] [KType; KSpace; KTypeName; KSpace; k] (x0 :: x1 :: x2 :: x3 :: x4 :: tl) never.
Proof.
  intros Hk h1 W C K _. unfold reset_kind. apply wp_bind, wp_get_kind. cbn [head hd_error s_heap]. rewrite (pre_kind h1 _ _ _ 0 x0 KType (proj1 K) eq_refl eq_refl). kred.
  apply (ty_keyword h1 _ W C okr x0 x1 x2 x3 x4 tl eq_refl); [done|by apply base_init|done|by apply fuel_enough].
Qed.
Lemma kind_new_receiver t : kind_new t ∉ receivers.
Proof.
  unfold kind_new. intros H. apply mem_kind_true in H. destruct t as [|c t]; [vm_compute in H; discriminate H|]. set (t' := c :: t) in *. clearbody t'.
  destruct (switch_find t' new_switch) as [k|] eqn:E.
  - apply switch_find_some in E as [E _].
    assert (A : Forall (fun k => mem_kind k receivers = false) new_switch) by (repeat (constructor; [reflexivity|]); constructor).
    rewrite Forall_forall in A. rewrite (A k E) in H. done.
  - clear E. repeat match type of H with mem_kind (if ?b then _ else _) _ = _ => destruct b; [discriminate H|] end. discriminate H.
Qed.

Lemma header_result ord h startLine text t0 k0 hdr rest okr ks' bad h' scs : any_order ord -> SpecNode.wf h -> startLine <> 1%Z ->
  lexes text ((t0, k0) :: hdr) rest -> (exists k, begins k t0) -> Forall (fun t : str * kind => count_nl (fst t) = 0%Z) ((t0, k0) :: hdr) ->
  length ks' = length ((t0, k0) :: hdr) ->
  (forall g, length ks' <= length g -> runs okr (map snd ((t0, k0) :: hdr)) ks' g bad) ->
  (forall ks ks2, bad ks -> bad (ks ++ ks2)) -> (forall toks, tokens text toks -> ~ bad (map snd toks)) ->
  parse_scope ord h startLine text = Ok (h', scs) ->
  exists sc scs' cur, scs = sc :: scs' /\ sc_kind sc = new_scope_kind t0 /\ scope_nodes h' sc cur /\
    (forall i t k, map fst ((t0, k0) :: hdr) !! i = Some t -> ks' !! i = Some k -> exists l, cur !! i = Some l /\ kind_of h' (Some l) = k /\ text_of h' (Some l) = t) /\
    (okr = false -> none_of_kind h' cur KMethodReceiverType).
Proof.
  intros O W Nl L Bg Z0 Lk R Mono Nb E.
  destruct (header_scope ord h startLine text hdr rest t0 k0 h' scs O W Nl L Bg Z0 E) as (h1 & h2 & l0 & xs & g & gs & T & Ep & -> & W1 & W' & SP & Ll & C & Rf).
  set (hd := (t0, k0) :: hdr) in *. set (gr := (l0 :: xs) ++ g) in *.
  assert (Lx : length (l0 :: xs) = length hd) by (rewrite <- (map_length (pay h1)), Ep, map_length; done).
  assert (Pg : forall i l, gr !! i = Some l -> i < length hd -> exists t k, hd !! i = Some (t, k) /\ text_of h1 (Some l) = t /\ kind_of h1 (Some l) = k).
  { intros i l El Li. unfold gr in El. rewrite lookup_app_l in El by lia.
    assert (Em : map (pay h1) (l0 :: xs) !! i = Some (pay h1 l)) by (rewrite list_lookup_fmap, El; done).
    rewrite Ep, list_lookup_fmap in Em. destruct (hd !! i) as [[t k]|]; [|done]. cbn [fmap option_fmap option_map fst snd] in Em. exists t, k. split; [done|].
    unfold pay in Em. injection Em as _ -> ->. done. }
  assert (Tk : tokens text (map (pay h1) ((l0 :: xs) ++ g ++ concat gs))) by (exact (tokenised_tokens ord h text h1 _ O W T)).
  destruct (refined_result h2 h' gr okr (map snd hd) ks' bad) as (cur & Cc & Hc & Sub & P & Nr); [|done| | | |].
  - apply R. unfold gr. rewrite app_length. lia.
  - intros i l k El Ek. rewrite list_lookup_fmap in Ek. destruct (hd !! i) as [[t k']|] eqn:Eh; [|done]. injection Ek as <-.
    destruct (Pg i l El) as (t' & k2 & Eh' & _ & K); [by eapply lookup_lt_Some|]. rewrite (proj1 (proj2 (proj2 SP (Some l)))), K. rewrite Eh in Eh'. by injection Eh'.
  - intros _ l Hl. rewrite (proj1 (proj2 (proj2 SP (Some l)))). apply scan_kinds in Tk. rewrite Forall_forall in Tk. specialize (Tk (pay h1 l)).
    cbn [pay fst snd] in Tk. destruct Tk as [-> |[-> | ->]].
    + apply elem_of_list_fmap. exists l. split; [done|]. unfold gr in Hl. rewrite app_assoc. apply elem_of_app. by left.
    + apply kind_new_receiver.
    + apply mem_kind_false. reflexivity.
    + apply mem_kind_false. reflexivity.
  - intros B. apply (Nb _ Tk). rewrite map_map, app_assoc, map_app. apply Mono.
    replace (map (fun x => snd (pay h1 x)) ((l0 :: xs) ++ g)) with (map (fun l => kind_of h2 (Some l)) gr); [done|].
    apply map_ext. intros l. apply (proj1 (proj2 (proj2 SP (Some l)))).
  - exists (scope_of h1 gr), (map (scope_of h1) gs), cur. split; [done|]. split.
    { unfold gr. cbn [app scope_of sc_kind]. cbn [map fst snd hd] in Ep. unfold hd in Ep. cbn [map fst snd] in Ep. injection Ep as _ -> _. done. }
    split; [split; [by rewrite Hc|by exists []]|]. split.
    + intros i t k Et Ek. pose proof (lookup_lt_Some _ _ _ Ek) as Li. destruct (lookup_lt_is_Some_2 gr i) as [l El]; [unfold gr; rewrite app_length; lia|].
      destruct (P i l k El Ek) as (P1 & P2 & P3). exists l. split; [done|]. split; [done|]. rewrite P3, (proj2 (proj2 (proj2 SP (Some l)))).
      destruct (Pg i l El) as (t' & k2 & Eh & -> & _); [lia|]. rewrite list_lookup_fmap, Eh in Et. by injection Et.
    + intros Eo l Hl Ek. apply (Nr Eo l); [by eapply sublist_in|]. rewrite Ek. by right; left.
Qed.
Lemma first_text h' cur ts ks' i t k :
  (forall i t k, ts !! i = Some t -> ks' !! i = Some k -> exists l, cur !! i = Some l /\ kind_of h' (Some l) = k /\ text_of h' (Some l) = t) ->
  length ts = length ks' ->
  ts !! i = Some t -> ks' !! i = Some k -> mem_kind k (take i ks') = false ->
  (forall l, first_of_kind h' cur k l -> text_of h' (Some l) = t) /\ ~ none_of_kind h' cur k.
Proof.
  intros P Ll Et Ek N. apply mem_kind_false in N. destruct (P i t k Et Ek) as (x & Ex & Kx & Tx). split.
  - intros l (xs & ys & -> & Kl & Nl). destruct (Nat.lt_trichotomy (length xs) i) as [L|[L|L]].
    + exfalso. destruct (lookup_lt_is_Some_2 ks' (length xs)) as [k' Ek']; [apply lookup_lt_Some in Ek; lia|].
      destruct (lookup_lt_is_Some_2 ts (length xs)) as [t' Et']; [apply lookup_lt_Some in Et; lia|].
      destruct (P _ _ _ Et' Ek') as (y & Ey & Ky & _). rewrite list_lookup_middle in Ey by done. injection Ey as <-.
      apply N. rewrite <- Kl, Ky. apply elem_of_list_lookup. exists (length xs). by rewrite lookup_take.
    + rewrite list_lookup_middle in Ex by done. injection Ex as <-. done.
    + exfalso. rewrite lookup_app_l in Ex by done. apply (Nl x); [by eapply elem_of_list_lookup_2|done].
  - intros Nn. apply (Nn x); [by eapply elem_of_list_lookup_2|done].
Qed.
Lemma plain_check w : w <> [] -> forallb (fun c => negb (bool_decide (c ∈ separators)) && negb (bool_decide (c = c_dq)) && negb (bool_decide (c = c_bq)) && negb (bool_decide (c = "/"%char))) w = true -> plain_word w.
Proof.
  intros N A. split; [done|]. intros c Hc. rewrite forallb_forall in A. specialize (A c (proj1 (elem_of_list_In _ _) Hc)).
  rewrite !andb_true_iff, !negb_true_iff, !bool_decide_eq_false in A. tauto.
Qed.
Lemma ends_sep c r : c ∈ separators -> word_ends (c :: r).
Proof. intros H. right. right. by exists c. Qed.
Lemma sep_in c : bool_decide (c ∈ separators) = true -> c ∈ separators.
Proof. apply bool_decide_eq_true. Qed.
Lemma kw_token w r : plain_word w -> word_ends r -> forall k, kind_new w = k -> token (w ++ r) w k r.
Proof. intros P E k <-. by apply plain_token. Qed.
Lemma never_mono ks ks2 : never ks -> never (ks ++ ks2). Proof. done. Qed.
Lemma called_mono ks ks2 : called_at_once ks -> called_at_once (ks ++ ks2).
Proof. intros (xs & ys & -> & B & H). exists xs, (ys ++ ks2). split; [by rewrite <- app_assoc|done]. Qed.

(** ** C41 *)
(** A text that starts with [func Name]: the name is found, and there is no
    receiver, whatever follows. *)
Theorem C41_func_name : forall ord h startLine name rest h' scs, any_order ord -> SpecNode.wf h -> startLine <> 1%Z ->
  plain_word name -> kind_new name = KRaw -> word_ends rest ->
  parse_scope ord h startLine ($"func " ++ name ++ rest) = Ok (h', scs) ->
  exists sc scs', scs = sc :: scs' /\ sc_kind sc = SFunc /\
    get_func_name h' sc = Ok (name, true) /\
    (exists t, get_method_receiver h' sc = Ok (t, false)) /\ get_method_name h' sc = Ok ([], false).
Proof.
  intros ord h n name rest h' scs O W Nn PW Kn WE E.
  assert (L : lexes ($"func " ++ name ++ rest) [($"func", KFunc); ([c_sp], KSpace); (name, KRaw)] rest).
  { apply (lx_cons _ _ _ (c_sp :: name ++ rest)).
    - change ($"func " ++ name ++ rest) with ($"func" ++ c_sp :: name ++ rest). apply kw_token; [by apply plain_check|apply ends_sep, sep_in; reflexivity|reflexivity].
    - eapply lx_cons; [apply (sep_token c_sp), sep_in; reflexivity|]. apply lexes_one. by apply kw_token. }
  destruct (header_result ord h n _ _ _ _ _ false [KFunc; KSpace; KFuncName] never h' scs O W Nn L) as (sc & scs' & cur & -> & Ks & SN & P & Nr);
    [exists $"func"; split; [apply (proj1 (bool_decide_eq_true ($"func" ∈ scope_keywords))); reflexivity|done]|
     repeat constructor; cbn [fst]; by apply plain_no_nl|done| |exact never_mono|by intros ? ? ?|exact E|].
  { intros g Lg. destruct g as [|a [|b [|c g]]]; cbn [length] in Lg; try lia. apply run_func. }
  change (sc_kind sc = SFunc) in Ks. exists sc, scs'. split; [done|]. split; [done|].
  pose proof (first_text h' cur _ _ 2 name KFuncName P eq_refl eq_refl eq_refl eq_refl) as [F1 F2].
  split; [|split].
  - destruct (C44_func_name h' sc cur Ks SN) as [(l & Fl & ->)|[Nk _]]; [by rewrite (F1 l Fl)|by destruct F2].
  - destruct (C44_method_receiver h' sc cur Ks SN) as [(l & (xs & ys & El & Kl & _) & _)|[_ ->]]; [|by eexists].
    destruct (Nr eq_refl l); [rewrite El; apply elem_of_app; right; by left|done].
  - destruct (C44_method_name h' sc cur Ks SN) as [[_ ->]|[(l & xs & ys & El & Kl & _) _]]; [done|].
    destruct (Nr eq_refl l); [rewrite El; apply elem_of_app; right; by left|done].
Qed.
(** ** C42 *)
(** A text that starts with a method header: receiver and name are found, unless
    the tokens are those of a function called at once. *)
Theorem C42_named_receiver : forall ord h startLine r T name rest h' scs, any_order ord -> SpecNode.wf h -> startLine <> 1%Z ->
  plain_word r -> kind_new r = KRaw -> plain_word T -> kind_new T = KRaw -> plain_word name -> kind_new name = KRaw -> word_ends rest ->
  let text := $"func (" ++ r ++ $" " ++ T ++ $") " ++ name ++ rest in
  (forall toks, tokens text toks -> ~ called_at_once (map snd toks)) ->
  parse_scope ord h startLine text = Ok (h', scs) ->
  exists sc scs', scs = sc :: scs' /\ sc_kind sc = SFunc /\
    get_method_receiver h' sc = Ok (T, true) /\ get_method_name h' sc = Ok (name, true) /\ get_func_name h' sc = Ok (name, true).
Proof.
  intros ord h n r T name rest h' scs O W Nn Pr Kr PT KT PW Kn WE text Nc E.
  assert (L : lexes text [($"func", KFunc); ([c_sp], KSpace); ($"(", KParenL); (r, KRaw); ([c_sp], KSpace); (T, KRaw); ($")", KParenR); ([c_sp], KSpace); (name, KRaw)] rest).
  { apply (lx_cons _ _ _ (c_sp :: "("%char :: r ++ c_sp :: T ++ ")"%char :: c_sp :: name ++ rest)).
    { change text with ($"func" ++ c_sp :: "("%char :: r ++ c_sp :: T ++ ")"%char :: c_sp :: name ++ rest).
      apply kw_token; [by apply plain_check|apply ends_sep, sep_in; reflexivity|reflexivity]. }
    eapply lx_cons; [apply (sep_token c_sp), sep_in; reflexivity|].
    eapply lx_cons; [apply (sep_token "("%char), sep_in; reflexivity|].
    eapply lx_cons; [apply kw_token; [done|apply ends_sep, sep_in; reflexivity|done]|].
    eapply lx_cons; [apply (sep_token c_sp), sep_in; reflexivity|].
    eapply lx_cons; [apply kw_token; [done|apply ends_sep, sep_in; reflexivity|done]|].
    eapply lx_cons; [apply (sep_token ")"%char), sep_in; reflexivity|].
    eapply lx_cons; [apply (sep_token c_sp), sep_in; reflexivity|].
    apply lexes_one. by apply kw_token. }
  destruct (header_result ord h n text _ _ _ _ true [KFunc; KSpace; KParenL; KMethodReceiverName; KSpace; KMethodReceiverType; KParenR; KSpace; KFuncName] called_at_once h' scs O W Nn L) as (sc & scs' & cur & -> & Ks & SN & P & _);
    [exists $"func"; split; [apply (proj1 (bool_decide_eq_true ($"func" ∈ scope_keywords))); reflexivity|done]|
     repeat constructor; cbn [fst]; by apply plain_no_nl|done| |exact called_mono|exact Nc|exact E|].
  { intros g Lg. destruct g as [|a0 [|a1 [|a2 [|a3 [|a4 [|a5 [|a6 [|a7 [|a8 g]]]]]]]]]; cbn [length] in Lg; try lia. apply run_mth. }
  change (sc_kind sc = SFunc) in Ks. exists sc, scs'. split; [done|]. split; [done|].
  pose proof (first_text h' cur _ _ 8 name KFuncName P eq_refl eq_refl eq_refl eq_refl) as [F1 F2].
  pose proof (first_text h' cur _ _ 5 T KMethodReceiverType P eq_refl eq_refl eq_refl eq_refl) as [G1 G2].
  split; [|split].
  - destruct (C44_method_receiver h' sc cur Ks SN) as [(l & Fl & ->)|[Nk _]]; [by rewrite (G1 l Fl)|by destruct G2].
  - destruct (C44_method_name h' sc cur Ks SN) as [[Nk _]|[_ [(l & Fl & ->)|[Nk _]]]]; [by destruct G2|by rewrite (F1 l Fl)|by destruct F2].
  - destruct (C44_func_name h' sc cur Ks SN) as [(l & Fl & ->)|[Nk _]]; [by rewrite (F1 l Fl)|by destruct F2].
Qed.
Theorem C42_unnamed_receiver : forall ord h startLine T name rest h' scs, any_order ord -> SpecNode.wf h -> startLine <> 1%Z ->
  plain_word T -> kind_new T = KRaw -> plain_word name -> kind_new name = KRaw -> word_ends rest ->
  let text := $"func (" ++ T ++ $") " ++ name ++ rest in
  (forall toks, tokens text toks -> ~ called_at_once (map snd toks)) ->
  parse_scope ord h startLine text = Ok (h', scs) ->
  exists sc scs', scs = sc :: scs' /\ sc_kind sc = SFunc /\
    get_method_receiver h' sc = Ok (T, true) /\ get_method_name h' sc = Ok (name, true) /\ get_func_name h' sc = Ok (name, true).
Proof.
  intros ord h n T name rest h' scs O W Nn PT KT PW Kn WE text Nc E.
  assert (L : lexes text [($"func", KFunc); ([c_sp], KSpace); ($"(", KParenL); (T, KRaw); ($")", KParenR); ([c_sp], KSpace); (name, KRaw)] rest).
  { apply (lx_cons _ _ _ (c_sp :: "("%char :: T ++ ")"%char :: c_sp :: name ++ rest)).
    { change text with ($"func" ++ c_sp :: "("%char :: T ++ ")"%char :: c_sp :: name ++ rest).
      apply kw_token; [by apply plain_check|apply ends_sep, sep_in; reflexivity|reflexivity]. }
    eapply lx_cons; [apply (sep_token c_sp), sep_in; reflexivity|].
    eapply lx_cons; [apply (sep_token "("%char), sep_in; reflexivity|].
    eapply lx_cons; [apply kw_token; [done|apply ends_sep, sep_in; reflexivity|done]|].
    eapply lx_cons; [apply (sep_token ")"%char), sep_in; reflexivity|].
    eapply lx_cons; [apply (sep_token c_sp), sep_in; reflexivity|].
    apply lexes_one. by apply kw_token. }
  destruct (header_result ord h n text _ _ _ _ true [KFunc; KSpace; KParenL; KMethodReceiverType; KParenR; KSpace; KFuncName] called_at_once h' scs O W Nn L) as (sc & scs' & cur & -> & Ks & SN & P & _);
    [exists $"func"; split; [apply (proj1 (bool_decide_eq_true ($"func" ∈ scope_keywords))); reflexivity|done]|
     repeat constructor; cbn [fst]; by apply plain_no_nl|done| |exact called_mono|exact Nc|exact E|].
  { intros g Lg. destruct g as [|a0 [|a1 [|a2 [|a3 [|a4 [|a5 [|a6 g]]]]]]]; cbn [length] in Lg; try lia. apply run_mtu. }
  change (sc_kind sc = SFunc) in Ks. exists sc, scs'. split; [done|]. split; [done|].
  pose proof (first_text h' cur _ _ 6 name KFuncName P eq_refl eq_refl eq_refl eq_refl) as [F1 F2].
  pose proof (first_text h' cur _ _ 3 T KMethodReceiverType P eq_refl eq_refl eq_refl eq_refl) as [G1 G2].
  split; [|split].
  - destruct (C44_method_receiver h' sc cur Ks SN) as [(l & Fl & ->)|[Nk _]]; [by rewrite (G1 l Fl)|by destruct G2].
  - destruct (C44_method_name h' sc cur Ks SN) as [[Nk _]|[_ [(l & Fl & ->)|[Nk _]]]]; [by destruct G2|by rewrite (F1 l Fl)|by destruct F2].
  - destruct (C44_func_name h' sc cur Ks SN) as [(l & Fl & ->)|[Nk _]]; [by rewrite (F1 l Fl)|by destruct F2].
Qed.
(** ** C43 *)
Theorem C43_type_name : forall ord h startLine name rest h' scs, any_order ord -> SpecNode.wf h -> startLine <> 1%Z ->
  plain_word name -> kind_new name = KRaw -> word_ends rest ->
  parse_scope ord h startLine ($"type " ++ name ++ rest) = Ok (h', scs) ->
  exists sc scs', scs = sc :: scs' /\ sc_kind sc = SType /\ get_type_name h' sc = Ok (name, true).
Proof.
  intros ord h n name rest h' scs O W Nn PW Kn WE E.
  assert (L : lexes ($"type " ++ name ++ rest) [($"type", KType); ([c_sp], KSpace); (name, KRaw)] rest).
  { apply (lx_cons _ _ _ (c_sp :: name ++ rest)).
    - change ($"type " ++ name ++ rest) with ($"type" ++ c_sp :: name ++ rest). apply kw_token; [by apply plain_check|apply ends_sep, sep_in; reflexivity|reflexivity].
    - eapply lx_cons; [apply (sep_token c_sp), sep_in; reflexivity|]. apply lexes_one. by apply kw_token. }
  destruct (header_result ord h n _ _ _ _ _ true [KType; KSpace; KTypeName] never h' scs O W Nn L) as (sc & scs' & cur & -> & Ks & SN & P & Nr);
    [exists $"type"; split; [apply (proj1 (bool_decide_eq_true ($"type" ∈ scope_keywords))); reflexivity|done]|
     repeat constructor; cbn [fst]; by apply plain_no_nl|done| |exact never_mono|by intros ? ? ?|exact E|].
  { intros g Lg. destruct g as [|a [|b [|c g]]]; cbn [length] in Lg; try lia. apply run_type. }
  change (sc_kind sc = SType) in Ks. exists sc, scs'. split; [done|]. split; [done|].
  pose proof (first_text h' cur _ _ 2 name KTypeName P eq_refl eq_refl eq_refl eq_refl) as [F1 F2].
  destruct (C44_type_name h' sc cur Ks SN) as [(l & Fl & ->)|[Nk _]]; [by rewrite (F1 l Fl)|by destruct F2].
Qed.
Theorem C43_struct_interface_name : forall ord h startLine keyword name rest h' scs, any_order ord -> SpecNode.wf h -> startLine <> 1%Z ->
  keyword = $"struct" \/ keyword = $"interface" -> plain_word name -> kind_new name = KRaw -> word_ends rest ->
  parse_scope ord h startLine ($"type " ++ name ++ $" " ++ keyword ++ rest) = Ok (h', scs) ->
  exists sc scs', scs = sc :: scs' /\ sc_kind sc = SType /\ get_type_name h' sc = Ok (name, true) /\
    (keyword = $"struct" -> get_struct_name h' sc = Ok (name, true)) /\
    (keyword = $"interface" -> get_interface_name h' sc = Ok (name, true)).
Proof.
  intros ord h n kw name rest h' scs O W Nn Hk PW Kn WE E.
  assert (exists k, (k = KStruct \/ k = KInterface) /\ kind_new kw = k /\ plain_word kw /\ (kw = $"struct" -> k = KStruct) /\ (kw = $"interface" -> k = KInterface)) as (k & Hk' & Kk & Pk & I1 & I2).
  { destruct Hk as [-> | ->]; eexists; (split; [by (left + right)|]); (split; [reflexivity|]); (split; [by apply plain_check|]); split; done. }
  set (text := $"type " ++ name ++ $" " ++ kw ++ rest) in *.
  assert (L : lexes text [($"type", KType); ([c_sp], KSpace); (name, KRaw); ([c_sp], KSpace); (kw, k)] rest).
  { apply (lx_cons _ _ _ (c_sp :: name ++ c_sp :: kw ++ rest)).
    { change text with ($"type" ++ c_sp :: name ++ c_sp :: kw ++ rest). apply kw_token; [by apply plain_check|apply ends_sep, sep_in; reflexivity|reflexivity]. }
    eapply lx_cons; [apply (sep_token c_sp), sep_in; reflexivity|].
    eapply lx_cons; [apply kw_token; [done|apply ends_sep, sep_in; reflexivity|done]|].
    eapply lx_cons; [apply (sep_token c_sp), sep_in; reflexivity|].
    apply lexes_one. by apply kw_token. }
  destruct (header_result ord h n text _ _ _ _ true [KType; KSpace; KTypeName; KSpace; k] never h' scs O W Nn L) as (sc & scs' & cur & -> & Ks & SN & P & Nr);
    [exists $"type"; split; [apply (proj1 (bool_decide_eq_true ($"type" ∈ scope_keywords))); reflexivity|done]|
     repeat constructor; cbn [fst]; by apply plain_no_nl|done| |exact never_mono|by intros ? ? ?|exact E|].
  { intros g Lg. destruct g as [|a0 [|a1 [|a2 [|a3 [|a4 g]]]]]; cbn [length] in Lg; try lia. by apply run_keyword. }
  change (sc_kind sc = SType) in Ks. exists sc, scs'. split; [done|]. split; [done|].
  pose proof (first_text h' cur _ _ 2 name KTypeName P eq_refl eq_refl eq_refl eq_refl) as [F1 F2].
  destruct (P 4 kw k eq_refl eq_refl) as (x & Ex & Kx & _). apply elem_of_list_lookup_2 in Ex.
  destruct (C44_type_name h' sc cur Ks SN) as [(l & Fl & Et)|[Nk _]]; [|by destruct F2]. rewrite (F1 l Fl) in Et. rewrite Et.
  split; [done|]. split; intros Ekw.
  - destruct (C44_struct_name h' sc cur Ks SN) as (nm & fd & Et' & [[_ ->]|[Nk _]]); rewrite Et in Et'; [by injection Et' as <- _|].
    destruct (Nk x Ex). by rewrite Kx, (I1 Ekw).
  - destruct (C44_interface_name h' sc cur Ks SN) as (nm & fd & Et' & [[_ ->]|[Nk _]]); rewrite Et in Et'; [by injection Et' as <- _|].
    destruct (Nk x Ex). by rewrite Kx, (I2 Ekw).
Qed.

(** ** Examples and refutations *)
Fixpoint brace_paren (ks : list kind) : bool :=
  match ks with
  | a :: r => match r with b :: _ => kind_eqb a KCurlyR && kind_eqb b KParenL | [] => false end || brace_paren r
  | [] => false
  end.
Lemma not_called ks : brace_paren ks = false -> ~ called_at_once ks.
Proof.
  intros H (xs & ys & -> & _). induction xs as [|x xs IH]; [vm_compute in H; discriminate H|].
  cbn [app brace_paren] in H. apply orb_false_iff in H as [_ H]. by apply IH.
Qed.
Definition ex_method : str := $"func (r *T) Get(a int) error {" ++ nl ++ [c_tab] ++ $"return nil" ++ nl ++ $"}" ++ nl.
Example ex_C41 : plain_word $"f" /\ kind_new $"f" = KRaw /\ word_ends ($"(a int) {}" ++ nl) /\
  match parse_scope src_ord [] 0 ($"func f(a int) {}" ++ nl) with
  | Ok (h', sc :: _) => get_func_name h' sc = Ok ($"f", true) | _ => False end.
Proof. split; [by apply plain_check|]. split; [reflexivity|]. split; [by apply ends_sep, sep_in|]. vm_compute. reflexivity. Qed.
Example ex_C42 : plain_word $"r" /\ plain_word $"*T" /\ kind_new $"*T" = KRaw /\
  (forall toks, tokens ex_method toks -> ~ called_at_once (map snd toks)) /\
  match parse_scope src_ord [] 0 ex_method with
  | Ok (h', sc :: _) => get_method_receiver h' sc = Ok ($"*T", true) /\ get_method_name h' sc = Ok ($"Get", true) | _ => False end.
Proof.
  split; [by apply plain_check|]. split; [by apply plain_check|]. split; [reflexivity|]. split; [|vm_compute; split; reflexivity].
  intros toks H. assert (T : exists h', tokenised src_ord [] ex_method h' (seq 0 26)).
  { eexists. split; [vm_compute; reflexivity|vm_compute; repeat split; lia]. }
  destruct T as [h' T]. pose proof (tokenised_tokens src_ord [] _ _ _ (proj1 ex_order) ex_wf_empty T) as T'.
  rewrite (tokens_unique _ _ _ H T'). apply not_called. destruct T as [T _]. rewrite map_map.
  assert (E : match extract src_ord [] ex_method with Ok (h', _) => brace_paren (map (fun l => snd (pay h' l)) (seq 0 26)) = false | _ => False end) by (vm_compute; reflexivity).
  by rewrite T in E.
Qed.
(** Without the condition on immediate calls the claim fails, and so does the
    claim for every receiver: an unnamed generic receiver is not found. *)
Theorem C42_method_refuted :
  match parse_scope src_ord [] 0 $"func (r T) N() {}(" with
  | Ok (h', sc :: _) => get_method_receiver h' sc <> Ok ($"T", true) | _ => False end /\
  match parse_scope src_ord [] 0 ($"func (T[K]) N() {}" ++ nl) with
  | Ok (h', sc :: _) => get_method_receiver h' sc = Ok (nl, false) /\ get_method_name h' sc = Ok ([], false) | _ => False end.
Proof. split; [vm_compute; discriminate|vm_compute; split; reflexivity]. Qed.
Example ex_C43 : plain_word $"T" /\ kind_new $"T" = KRaw /\ word_ends ($" {" ++ nl ++ $"}") /\
  match parse_scope src_ord [] 0 ($"type T struct {" ++ nl ++ $"}") with
  | Ok (h', sc :: _) => get_struct_name h' sc = Ok ($"T", true) /\ get_interface_name h' sc = Ok ($"T", false) | _ => False end.
Proof. split; [by apply plain_check|]. split; [reflexivity|]. split; [by apply ends_sep, sep_in|]. vm_compute. split; reflexivity. Qed.
