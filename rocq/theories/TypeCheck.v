(** A checker for the relations of SpecKinds.v on type declarations, for the
    examples only. *)
From Verif Require Import SpecText SpecKinds NodeChain ResetRun KindCheck.

(** up to the first lexeme of kind [k] *)
Fixpoint until (k : kind) (ts : lexemes) : option (lexemes * str * lexemes) :=
  match ts with
  | [] => None
  | x :: ts => if is_k k x then Some ([], fst x, ts) else match until k ts with Some (p, u, r) => Some (x :: p, u, r) | None => None end
  end.
Lemma until_ok k ts : forall p u r, until k ts = Some (p, u, r) -> ts = p ++ (u, k) :: r /\ k ∉ map snd p.
Proof.
  induction ts as [|x ts IH]; intros p u r H; [done|]. cbn [until] in H. destruct (is_k k x) eqn:E.
  - injection H as <- <- <-. rewrite (is_k_true _ _ E) at 1. split; [done|apply not_elem_of_nil].
  - destruct (until k ts) as [[[p' u'] r']|]; [|done]. injection H as <- <- <-. destruct (IH _ _ _ eq_refl) as [-> N]. split; [done|]. cbn [map]. apply not_elem_of_cons. split; [|done].
    unfold is_k in E. apply kind_eqb_false in E. done.
Qed.
Definition squares_fn (ks : list kind) : bool :=
  match close (2 + length ks) KSquareL KSquareR (map (fun k => ([], k)) ks ++ [([], KSquareR)]) with Some (_, _, []) => true | _ => false end.
Lemma squares_fn_ok ks : squares_fn ks = true -> squares ks.
Proof.
  unfold squares_fn. destruct (close _ _ _ _) as [[[p u] [|]]|] eqn:E; [|done|done]. intros _. apply close_ok in E as [E N]. apply app_inj_tail in E as [E _].
  apply nested_squares. rewrite <- E, map_map in N. cbn [snd] in N. by rewrite map_id in N.
Qed.

Fixpoint row_fn (fu n : nat) (ts : lexemes) : option lexemes :=
  match fu, ts with
  | S fu, [] => Some []
  | S fu, x :: r =>
      if is_k KRaw x then match n with
        | S n => (fun r' => (fst x, KParamName) :: r') <$> row_fn fu n r
        | O => (fun r' => (fst x, KParamType) :: r') <$> row_fn fu 0 r end
      else if is_k KFunc x then match r with
        | y :: r => if is_k KParenL y then
            match close fu KParenL KParenR r with
            | Some (ps, v, r) => match params_fn true fu KParamName KParamType ps with
                | Some ps' => (fun r' => x :: y :: ps' ++ (v, KParenR) :: r') <$> row_fn fu n r
                | None => None end
            | None => None end else None
        | [] => None end
      else if is_k KNewLine x then None
      else (fun r' => x :: r') <$> row_fn fu n r
  | _, _ => None
  end.
Lemma row_fn_ok fu : forall n ts ts', row_fn fu n ts = Some ts' -> row n ts ts'.
Proof.
  induction fu as [|fu IH]; intros n ts ts' H; [done|]. destruct ts as [|x r]; [injection H as <-; constructor|]. cbn [row_fn] in H. destruct (is_k KRaw x) eqn:E1.
  { rewrite (is_k_true _ _ E1). destruct n as [|n]; apply fmap_some in H as (r' & H & ->); constructor; by apply IH. }
  destruct (is_k KFunc x) eqn:E2.
  { destruct r as [|y r]; [done|]. destruct (is_k KParenL y) eqn:E3; [|done]. destruct (close fu KParenL KParenR r) as [[[ps v] r1]|] eqn:E4; [|done]. destruct (params_fn true fu KParamName KParamType ps) as [ps'|] eqn:E5; [|done].
    apply fmap_some in H as (r' & H & ->). apply close_ok in E4 as [-> _]. rewrite (is_k_true _ _ E2), (is_k_true _ _ E3). constructor; [by apply (proj2 (refine_ok true fu))|by apply IH]. }
  destruct (is_k KNewLine x) eqn:E3; [done|]. apply fmap_some in H as (r' & H & ->). destruct x as [t k]. unfold is_k in *. cbn [snd] in *. apply rw_other; [|by apply IH].
  apply kind_eqb_false in E1, E2, E3. rewrite !elem_of_cons. intros [?|[?|[?|Hx]]]; [done..|by apply elem_of_nil in Hx].
Qed.
Fixpoint fields_fn (fu : nat) (ts : lexemes) : option lexemes :=
  match fu, ts with
  | S fu, [] => Some []
  | S fu, x :: r =>
      if mem_kind (snd x) [KComment; KNewLine; KCurlyL] then (fun r' => x :: r') <$> fields_fn fu r
      else if is_k KCurlyR x then None
      else match until KNewLine r with
           | Some (p, u, r) => match row_fn fu (names (snd x :: map snd p)) (x :: p) with
               | Some p' => (fun r' => p' ++ (u, KNewLine) :: r') <$> fields_fn fu r
               | None => None end
           | None => None end
  | _, _ => None
  end.
Lemma fields_fn_ok fu : forall ts ts', fields_fn fu ts = Some ts' -> fields ts ts'.
Proof.
  induction fu as [|fu IH]; intros ts ts' H; [done|]. destruct ts as [|[t k] r]; [injection H as <-; constructor|]. cbn [fields_fn snd] in H. destruct (mem_kind k _) eqn:E1.
  { apply fmap_some in H as (r' & H & ->). constructor; [by apply mem_kind_true|by apply IH]. }
  destruct (is_k KCurlyR (t, k)) eqn:E2; [done|]. destruct (until KNewLine r) as [[[p u] r1]|] eqn:E3; [|done]. destruct (row_fn _ _ _) as [p'|] eqn:E4; [|done].
  apply fmap_some in H as (r' & H & ->). apply until_ok in E3 as [-> _]. constructor; [|by apply row_fn_ok in E4|by apply IH].
  apply mem_kind_false in E1. unfold is_k in E2. cbn [snd] in E2. apply kind_eqb_false in E2. rewrite !elem_of_cons in *. tauto.
Qed.
Fixpoint methods_fn (fu : nat) (ts : lexemes) : option lexemes :=
  match fu, ts with
  | S fu, [] => Some []
  | S fu, x :: r =>
      if mem_kind (snd x) [KTab; KComment; KNewLine; KSpace; KCurlyL] then (fun r' => x :: r') <$> methods_fn fu r
      else match (if is_k KRaw x then parens_fn fu KParamName KParamType r else None) with
           | Some (_, p', r) => match results_fn fu r with
               | Some (_, q', r) => match line_end_fn r with
                   | Some (e, r) => (fun r' => ((fst x, KFuncName) :: p' ++ q') ++ e ++ r') <$> methods_fn fu r
                   | None => None end
               | None => None end
           | None => match until KNewLine r with
               | Some (p, u, r) => if negb (mem_kind (snd x) [KTab; KComment; KNewLine; KSpace; KCurlyL; KCurlyR; KParenL; KParenR; KSquareL; KSquareR]) &&
                     forallb (fun k => negb (mem_kind k [KNewLine; KParenL; KParenR; KCurlyL; KCurlyR])) (map snd p) && squares_fn (map snd p)
                   then (fun r' => (fst x, if bool_decide (snd x = KRaw) then KTypeName else snd x) :: p ++ (u, KNewLine) :: r') <$> methods_fn fu r else None
               | None => None end
           end
  | _, _ => None
  end.
Lemma methods_fn_ok fu : forall ts ts', methods_fn fu ts = Some ts' -> methods ts ts'.
Proof.
  induction fu as [|fu IH]; intros ts ts' H; [done|]. destruct ts as [|[t k] r]; [injection H as <-; constructor|]. cbn [methods_fn snd fst] in H. destruct (mem_kind k [KTab; KComment; KNewLine; KSpace; KCurlyL]) eqn:E1.
  { apply fmap_some in H as (r' & H & ->). constructor; [by apply mem_kind_true|by apply IH]. }
  destruct (if is_k KRaw (t, k) then parens_fn fu KParamName KParamType r else None) as [[[p p'] r1]|] eqn:E2.
  - destruct (is_k KRaw (t, k)) eqn:E3; [|done]. destruct (results_fn fu r1) as [[[q q'] r2]|] eqn:E4; [|done]. destruct (line_end_fn r2) as [[e r3]|] eqn:E5; [|done]. apply fmap_some in H as (r' & H & ->).
    apply parens_ok in E2 as [-> P]. apply results_ok in E4 as [-> Rs]. apply line_end_fn_ok in E5 as [-> Le]. apply is_k_true in E3. rewrite E3. cbn [fst].
    rewrite (app_assoc p q), app_comm_cons. apply mt_method; [done|by apply oc_plain|done|by apply IH].
  - destruct (until KNewLine r) as [[[p u] r1]|] eqn:E3; [|done]. match type of H with (if ?b then _ else _) = _ => destruct b eqn:E4 end; [|done].
    apply andb_true_iff in E4 as [E4 E6]. apply andb_true_iff in E4 as [E4 E5]. apply fmap_some in H as (r' & H & ->). apply until_ok in E3 as [-> _]. constructor; [by apply mem_kind_false, negb_true_iff| |by apply squares_fn_ok|by apply IH].
    intros x Hx. apply mem_kind_false. apply elem_of_list_In in Hx. rewrite forallb_forall in E5. by apply negb_true_iff, E5.
Qed.
Definition note_fn (r : lexemes) : bool := match r with [] => true | [x; y] => is_k KSpace x && is_k KComment y | _ => false end.
Lemma note_fn_ok r : note_fn r = true -> r = [] \/ exists s c, r = [(s, KSpace); (c, KComment)].
Proof.
  destruct r as [|x [|y [|]]]; [by left|done| |done]. cbn [note_fn]. intros [A B]%andb_true_iff. right. exists (fst x), (fst y). by rewrite (is_k_true _ _ A) at 1; rewrite (is_k_true _ _ B) at 1.
Qed.
Fixpoint type_results_fn (fu : nat) (named : bool) (ts : lexemes) : option lexemes :=
  match fu, ts with
  | S fu, [] => Some []
  | S fu, x :: r =>
      if is_k KSquareL x then match close fu KSquareL KSquareR r with Some (p, u, r) => (fun r' => x :: p ++ (u, KSquareR) :: r') <$> type_results_fn fu named r | None => None end
      else if is_k KCurlyL x then match close fu KCurlyL KCurlyR r with Some (p, u, r) => (fun r' => x :: p ++ (u, KCurlyR) :: r') <$> type_results_fn fu named r | None => None end
      else if is_k KParenL x then match parens_fn fu KParamName KParamType (x :: r) with Some (_, p', r) => (fun r' => p' ++ r') <$> type_results_fn fu named r | None => None end
      else if is_k KNewLine x then None
      else if named && is_k KSpace x then match results_fn fu (x :: r) with Some (_, q', r) => if note_fn r then Some (q' ++ r) else None | None => None end
      else if negb named && is_k KRaw x then (fun r' => (fst x, KFuncName) :: r') <$> type_results_fn fu true r
      else (fun r' => x :: r') <$> type_results_fn fu named r
  | _, _ => None
  end.
Lemma type_results_fn_ok fu : forall b ts ts', type_results_fn fu b ts = Some ts' -> if b then named_result ts ts' else type_results ts ts'.
Proof.
  induction fu as [|fu IH]; intros b ts ts' H; [done|]. destruct ts as [|x r].
  { injection H as <-. destruct b; [apply (nr_results [] [] []); [constructor|by left]|constructor]. }
  cbn [type_results_fn] in H. destruct (is_k KSquareL x) eqn:E1.
  { destruct (close _ _ _ _) as [[[p u] r1]|] eqn:E2; [|done]. apply fmap_some in H as (r' & H & ->). apply close_ok in E2 as [-> N]. rewrite (is_k_true _ _ E1). apply IH in H. destruct b; constructor; [by apply nested_squares|done|by apply nested_squares|done]. }
  destruct (is_k KCurlyL x) eqn:E2.
  { destruct (close _ _ _ _) as [[[p u] r1]|] eqn:E3; [|done]. apply fmap_some in H as (r' & H & ->). apply close_ok in E3 as [-> N]. rewrite (is_k_true _ _ E2). apply IH in H. destruct b; by constructor. }
  destruct (is_k KParenL x) eqn:E3.
  { destruct (parens_fn _ _ _ _) as [[[p p'] r1]|] eqn:E4; [|done]. apply fmap_some in H as (r' & H & ->). apply parens_ok in E4 as [-> P]. apply IH in H. destruct b; by constructor. }
  destruct (is_k KNewLine x) eqn:E4; [done|]. destruct (b && is_k KSpace x) eqn:E5.
  { apply andb_true_iff in E5 as [-> E5]. destruct (results_fn _ _) as [[[q q'] r1]|] eqn:E6; [|done]. destruct (note_fn r1) eqn:E7; [|done]. injection H as <-. apply results_ok in E6 as [-> R]. constructor; [done|by apply note_fn_ok]. }
  destruct (negb b && is_k KRaw x) eqn:E6.
  { apply andb_true_iff in E6 as [E6 E7]. apply negb_true_iff in E6 as ->. apply fmap_some in H as (r' & H & ->). rewrite (is_k_true _ _ E7). cbn [fst]. constructor. by apply IH in H. }
  apply fmap_some in H as (r' & H & ->). apply IH in H. destruct x as [t k]. unfold is_k in *. cbn [snd] in *. destruct b; cbn [andb negb] in E5, E6; constructor; try done;
    apply kind_eqb_false in E1, E2, E3, E4; [apply kind_eqb_false in E5|apply kind_eqb_false in E6]; rewrite !elem_of_cons; (intros [?|[?|[?|[?|[?|Hx]]]]]; [done..|by apply elem_of_nil in Hx]).
Qed.
Fixpoint texpr_fn (fu : nat) (ts : lexemes) : option lexemes :=
  match fu, ts with
  | S fu, [] => Some []
  | S fu, x :: r =>
      if is_k KSquareL x then match close fu KSquareL KSquareR r with Some (p, u, r) => (fun r' => x :: p ++ (u, KSquareR) :: r') <$> texpr_fn fu r | None => None end
      else if is_k KStruct x || is_k KInterface x then
        match until KCurlyL r with
        | Some (pre, u, r) => match close fu KCurlyL KCurlyR r with
            | Some (b, v, r) => match (if is_k KStruct x then fields_fn fu b else methods_fn fu b) with
                | Some b' => (fun r' => x :: pre ++ (u, KCurlyL) :: b' ++ (v, KCurlyR) :: r') <$> texpr_fn fu r
                | None => None end
            | None => None end
        | None => None end
      else if is_k KRaw x then
        match until KNewLine r with
        | Some (w, u, r) => let '(w, cs) := match until KComment w with Some (w, c, r) => (w, (c, KComment) :: r) | None => (w, []) end in
            if forallb (fun k => negb (mem_kind k [KNewLine; KComment; KParenL; KCurlyL; KFunc])) (map snd w) && squares_fn (map snd w) && forallb (is_k KComment) cs
            then (fun r' => merged (x :: w) :: cs ++ (u, KNewLine) :: r') <$> texpr_fn fu r else None
        | None => None end
      else if is_k KFunc x then
        match parens_fn fu KParamName KParamType r with
        | Some (_, p', r) => match until KNewLine r with
            | Some (q, u, r) => match type_results_fn fu false q with
                | Some q' => (fun r' => x :: p' ++ q' ++ (u, KNewLine) :: r') <$> texpr_fn fu r
                | None => None end
            | None => None end
        | None => None end
      else (fun r' => x :: r') <$> texpr_fn fu r
  | _, _ => None
  end.
Lemma texpr_fn_ok fu : forall ts ts', texpr_fn fu ts = Some ts' -> texpr ts ts'.
Proof.
  induction fu as [|fu IH]; intros ts ts' H; [done|]. destruct ts as [|x r]; [injection H as <-; constructor|]. cbn [texpr_fn] in H. destruct (is_k KSquareL x) eqn:E1.
  { destruct (close _ _ _ _) as [[[p u] r1]|] eqn:E2; [|done]. apply fmap_some in H as (r' & H & ->). apply close_ok in E2 as [-> N]. rewrite (is_k_true _ _ E1). constructor; [by apply nested_squares|by apply IH]. }
  destruct (is_k KStruct x || is_k KInterface x) eqn:E2.
  { destruct (until KCurlyL r) as [[[pre u] r1]|] eqn:E3; [|done]. destruct (close _ _ _ _) as [[[b v] r2]|] eqn:E4; [|done].
    destruct (if is_k KStruct x then _ else _) as [b'|] eqn:E5; [|done]. apply fmap_some in H as (r' & H & ->). apply until_ok in E3 as [-> N]. apply close_ok in E4 as [-> _].
    destruct (is_k KStruct x) eqn:E6; cbn [orb] in E2; [rewrite (is_k_true _ _ E6)|rewrite (is_k_true _ _ E2)].
    - apply te_struct; [done|by apply fields_fn_ok in E5|by apply IH].
    - apply te_interface; [done|by apply methods_fn_ok in E5|by apply IH]. }
  destruct (is_k KRaw x) eqn:E3.
  { destruct (until KNewLine r) as [[[w u] r1]|] eqn:E4; [|done]. destruct (match until KComment w with Some _ => _ | None => _ end) as [w1 cs] eqn:Ec. match type of H with (if ?b then _ else _) = _ => destruct b eqn:E5 end; [|done].
    apply andb_true_iff in E5 as [[E5 E6]%andb_true_iff E7]. apply fmap_some in H as (r' & H & ->). apply until_ok in E4 as [-> _]. rewrite (is_k_true _ _ E3).
    assert (Ew : w = w1 ++ cs). { destruct (until KComment w) as [[[w2 c] r2]|] eqn:Eu; injection Ec as <- <-; [by apply until_ok in Eu as [-> _]|by rewrite app_nil_r]. }
    rewrite Ew, <- app_assoc. apply te_name; [|by apply squares_fn_ok| |by apply IH].
    2:{ apply Forall_forall. intros c Hc. rewrite forallb_forall in E7. apply kind_eqb_true. by apply E7, elem_of_list_In. }
    intros k Hk. apply mem_kind_false. apply elem_of_list_In in Hk. rewrite forallb_forall in E5. by apply negb_true_iff, E5. }
  destruct (is_k KFunc x) eqn:E4.
  { destruct (parens_fn _ _ _ _) as [[[p p'] r1]|] eqn:E5; [|done]. destruct (until KNewLine r1) as [[[q u] r2]|] eqn:E6; [|done]. destruct (type_results_fn fu false q) as [q'|] eqn:E7; [|done].
    apply fmap_some in H as (r' & H & ->). apply parens_ok in E5 as [-> P]. apply until_ok in E6 as [-> _]. rewrite (is_k_true _ _ E4). apply te_func; [done|by apply type_results_fn_ok in E7|by apply IH]. }
  apply fmap_some in H as (r' & H & ->). destruct x as [t k]. apply orb_false_iff in E2 as [E2 E5]. unfold is_k in *. cbn [snd] in *. apply te_other; [|by apply IH].
  apply kind_eqb_false in E1, E2, E3, E4, E5. rewrite !elem_of_cons. intros [?|[?|[?|[?|[?|Hx]]]]]; [done..|by apply elem_of_nil in Hx].
Qed.
(** up to the name or the end of the line *)
Fixpoint until_name (ts : lexemes) : option (lexemes * (str * kind) * lexemes) :=
  match ts with
  | [] => None
  | x :: ts => if mem_kind (snd x) [KRaw; KCurlyR; KNewLine] then Some ([], x, ts) else match until_name ts with Some (p, u, r) => Some (x :: p, u, r) | None => None end
  end.
Lemma until_name_ok ts : forall p u r, until_name ts = Some (p, u, r) -> ts = p ++ u :: r /\ forall x, x ∈ map snd p -> x ∉ [KRaw; KCurlyR; KNewLine].
Proof.
  induction ts as [|x ts IH]; intros p u r H; [done|]. cbn [until_name] in H. destruct (mem_kind (snd x) _) eqn:E.
  - injection H as <- <- <-. split; [done|]. intros k Hk. by apply elem_of_nil in Hk.
  - destruct (until_name ts) as [[[p' u'] r']|]; [|done]. injection H as <- <- <-. destruct (IH _ _ _ eq_refl) as [-> N]. split; [done|]. cbn [map]. intros k Hk. apply elem_of_cons in Hk as [->|Hk]; [by apply mem_kind_false|by apply N].
Qed.
Definition type_decl_fn (fu : nat) (ts : lexemes) : option lexemes :=
  match ts with
  | t :: r => if is_k KType t then match until_name r with
      | Some (pre, n, r) =>
          if is_k KNewLine n then Some ts
          else if is_k KRaw n then
            match r with
            | x :: r => if is_k KSpace x then (fun r' => t :: pre ++ (fst n, KTypeName) :: x :: r') <$> texpr_fn fu r
                        else if is_k KSquareL x then match close fu KSquareL KSquareR r with
                          | Some (p, u, s :: r) => if is_k KSpace s then (fun r' => t :: pre ++ (fst n, KTypeName) :: (x :: p ++ [(u, KSquareR)]) ++ s :: r') <$> texpr_fn fu r else None
                          | _ => None end
                        else None
            | [] => None end
          else None
      | None => None end else None
  | [] => None
  end.
Lemma type_decl_fn_ok fu ts ts' : type_decl_fn fu ts = Some ts' -> type_decl ts ts'.
Proof.
  destruct ts as [|t r]; [done|]. cbn [type_decl_fn]. destruct (is_k KType t) eqn:E1; [|done]. destruct (until_name r) as [[[pre n] r1]|] eqn:E2; [|done]. apply until_name_ok in E2 as [-> N].
  destruct (is_k KNewLine n) eqn:E3. { intros [= <-]. rewrite (is_k_true _ _ E1), (is_k_true _ _ E3). by constructor. }
  destruct (is_k KRaw n) eqn:E4; [|done]. destruct r1 as [|x r1]; [done|]. destruct (is_k KSpace x) eqn:E5.
  { intros (r' & H & ->)%fmap_some. rewrite (is_k_true _ _ E1), (is_k_true _ _ E4), (is_k_true _ _ E5). apply (td_type _ _ _ []); [done|constructor|by eapply texpr_fn_ok]. }
  destruct (is_k KSquareL x) eqn:E6; [|done]. destruct (close _ _ _ _) as [[[p u] [|s r2]]|] eqn:E7; [done| |done]. destruct (is_k KSpace s) eqn:E8; [|done].
  intros (r' & H & ->)%fmap_some. apply close_ok in E7 as [-> Sq]. rewrite (is_k_true _ _ E1), (is_k_true _ _ E4), (is_k_true _ _ E6), (is_k_true _ _ E8).
  replace ((fst x, KSquareL) :: p ++ (u, KSquareR) :: (fst s, KSpace) :: r2) with (((fst x, KSquareL) :: p ++ [(u, KSquareR)]) ++ (fst s, KSpace) :: r2) by (cbn [app]; by rewrite <- app_assoc).
  constructor; [done|constructor; by apply nested_squares|by eapply texpr_fn_ok].
Qed.
