(** C58: scope kinds, their names and their node kinds. *)
From Verif Require Import SpecScope Scope SplitProofs ResetSpec P_Lex P_Scope.

(** ** C58 *)
(** String and ToKind of the predeclared scope kinds, and of any other. *)
Theorem C58_scope_kind_tables : forall k s nk, (k, (s, nk)) ∈ scope_kind_names -> scope_kind_string k = s /\ to_kind k = nk.
Proof.
  intros k s nk H. repeat (apply elem_of_cons in H as [H|H]; [injection H as -> -> ->; by split|]). by apply elem_of_nil in H.
Qed.
Theorem C58_other_scope_kinds : forall k, (forall s nk, (k, (s, nk)) ∉ scope_kind_names) -> scope_kind_string k = [] /\ to_kind k = KNone.
Proof.
  intros k H.
  assert (N : forall k' s nk, (k', (s, nk)) ∈ scope_kind_names -> str_eqb k k' = false).
  { intros k' s nk Hk. apply bool_decide_eq_false. intros ->. by apply (H s nk). }
  assert (A : forall k', k' ∈ map fst scope_kind_names -> str_eqb k k' = false).
  { intros k' Hk. apply elem_of_list_fmap in Hk as ([k'' [s nk]] & -> & Hk). by eapply N. }
  unfold scope_kind_string, to_kind.
  assert (M : forall k', bool_decide (k' ∈ map fst scope_kind_names) = true -> str_eqb k k' = false) by (intros k' Hk; apply A; by apply bool_decide_eq_true in Hk).
  rewrite !(M SUnknown), !(M SPackage), !(M SComment), !(M SInnerComment), !(M SImport), !(M SVariable), !(M SConst), !(M SType), !(M SFunc) by reflexivity.
  done.
Qed.
(** Names are unique. *)
Theorem C58_names_unique : forall k k' s s' nk nk', (k, (s, nk)) ∈ scope_kind_names -> (k', (s', nk')) ∈ scope_kind_names -> s = s' -> k = k'.
Proof.
  intros k k' s s' nk nk' H H' E.
  assert (F : Forall (fun p => Forall (fun q => bool_decide (fst (snd p) = fst (snd q)) = true -> fst p = fst q) scope_kind_names) scope_kind_names).
  { repeat constructor; cbn [fst snd]; try (intros _; reflexivity); intros X; vm_compute in X; discriminate X. }
  rewrite Forall_forall in F. specialize (F _ H). rewrite Forall_forall in F. specialize (F _ H'). apply F. cbn [fst snd]. by apply bool_decide_eq_true.
Qed.

(** A token is classified by its text unless it is delimited. *)
Lemma token_kind s t k r : token s t k r -> k = kind_new t \/ exists d, opener d `prefix_of` t /\ k = dkind d.
Proof.
  intros T. destruct T as [c r Hc|w r Nw Hw Hr|d t r Nd [P [C M]]|t r [P [C M]]|d t C]; [by left|by left| |right; exists DLine|by left].
  - right. exists d. split; [|done]. destruct d; cbn [closed opener] in *; [destruct C as (b & -> & _)|destruct C as (b & ->)|destruct C as (b & -> & _)|done]; by eexists.
  - split; [|done]. destruct C as (b & E). cbn [opener]. exists b. change ($"//" ++ b ++ [c_nl]) with (("/" :: "/" :: b)%char ++ [c_nl]) in E. by apply app_inj_tail in E as [-> _].
Qed.
Lemma scan_token_kind n b st s ts : scan n b st s ts -> Forall (fun x : Z * str * kind => snd x = kind_new (snd (fst x)) \/ exists d, opener d `prefix_of` snd (fst x) /\ snd x = dkind d) ts.
Proof.
  intros H. induction H as [|n b st s t k r m b' st' ts T _ _ _ IH]; [constructor|]. constructor; [|done]. cbn [fst snd]. by eapply token_kind.
Qed.
Lemma kind_new_not_comment t : kind_new t <> KComment.
Proof.
  intros F. apply class_kind_new in F. remember KComment as kc eqn:Ec. destruct F; try discriminate Ec.
  apply (elem_of_list_fmap_1 snd) in H. cbn [snd] in H. subst k. apply mem_kind_true in H. vm_compute in H. discriminate H.
Qed.
Definition words : list str := [$"package"; $"import"; $"var"; $"const"; $"type"; $"func"].
(** ToKind of a parsed scope's kind is the kind of its first token, exactly if
    that token is a keyword or a comment. *)
Theorem C58_scope_to_kind : forall ord h startLine text h1 ls h' scs sc, any_order ord -> SpecNode.wf h ->
  tokenised ord h text h1 ls -> parse_scope ord h startLine text = Ok (h', scs) -> sc ∈ scs ->
  (to_kind (scope_kind_of (Some sc)) = kind_of h1 (sc_node sc) <->
   text_of h1 (sc_node sc) ∈ words \/ kind_of h1 (sc_node sc) = KComment).
Proof.
  intros ord h n text h1 ls h' scs sc O W Tk E Hsc.
  destruct (parse_inv ord h n text h1 ls h' scs O W Tk E) as (_ & _ & _ & _ & _ & _ & _ & _ & _ & T & _).
  destruct (proj1 (C35_scope_starts ord h n text h1 ls h' scs O W Tk E) sc Hsc) as (l & xs & ys & En & El & _ & B & Ek & _).
  rewrite Ek, En. clear Ek. assert (Hl : l ∈ ls) by (rewrite El; apply elem_of_app; right; by left).
  pose proof (scan_token_kind _ _ _ _ _ T) as F. rewrite Forall_forall in F. specialize (F (pay h1 l)).
  specialize (F ltac:(apply elem_of_list_fmap; by exists l)). cbn [pay fst snd] in F.
  generalize dependent (sc_kind sc). intros k B.
  assert (Cm : forall d, opener d `prefix_of` text_of h1 (Some l) -> dkind d = KComment -> to_kind k = KComment).
  { intros d P D. destruct d; [discriminate D|discriminate D|..].
    - assert (k = $"/*") as ->; [|reflexivity]. eapply C35_kind_determined; [exact B|]. split; [|exact P]. eapply bool_decide_unpack. vm_compute. exact I.
    - assert (k = $"//") as ->; [|reflexivity]. eapply C35_kind_determined; [exact B|]. split; [|exact P]. eapply bool_decide_unpack. vm_compute. exact I. }
  assert (Lk : k ∈ words /\ k_text (to_kind k) = k /\ to_kind k ∈ map snd reserved \/ to_kind k = KComment).
  { destruct B as [Bk _]. unfold scope_keywords in Bk.
    repeat (apply elem_of_cons in Bk as [->|Bk]; [first [right; reflexivity|left; split; [eapply bool_decide_unpack; vm_compute; exact I|split; [reflexivity|apply mem_kind_true; reflexivity]]]|]).
    by apply elem_of_nil in Bk. }
  split.
  - intros H. destruct Lk as [(Kw & Kt & Kr)|Kc]; [left|right; congruence].
    rewrite (token_fixed h1 ls text l (to_kind k) T Hl (eq_sym H) Kr), Kt. exact Kw.
  - intros [Hw|Hc].
    + assert (k = text_of h1 (Some l)) as ->.
      { eapply C35_kind_determined; [exact B|]. split; [|done]. clear -Hw. unfold words in Hw.
        repeat (apply elem_of_cons in Hw as [->|Hw]; [eapply bool_decide_unpack; vm_compute; exact I|]). by apply elem_of_nil in Hw. }
      destruct F as [F|(d & P & _)].
      * rewrite F. clear -Hw. unfold words in Hw. repeat (apply elem_of_cons in Hw as [->|Hw]; [reflexivity|]). by apply elem_of_nil in Hw.
      * exfalso. clear -Hw P. unfold words in Hw. repeat (apply elem_of_cons in Hw as [Hw|Hw];
          [rewrite Hw in P; destruct P as [q P]; destruct d; discriminate P|]). by apply elem_of_nil in Hw.
    + rewrite Hc. destruct F as [F|(d & P & F)]; [|apply (Cm d P); congruence].
      exfalso. rewrite Hc in F. by apply (kind_new_not_comment _ (eq_sym F)).
Qed.
(** Comments, declarations, a name that begins with a keyword, and a comment cut
    off by the end of the text. *)
Example ex_C58 : match parse_scope src_ord [] 0 ($"// c" ++ [c_nl] ++ $"func f() {}" ++ [c_nl] ++ $"typeLoop" ++ [c_nl] ++ $"/* x */" ++ [c_nl] ++ $"// y") with
  | Ok (h, scs) => map (fun sc => (to_kind (sc_kind sc), kind_of h (sc_node sc))) scs =
      [(KComment, KComment); (KFunc, KFunc); (KType, KRaw); (KComment, KComment); (KComment, KRaw)] | _ => False end.
Proof. vm_compute. reflexivity. Qed.
