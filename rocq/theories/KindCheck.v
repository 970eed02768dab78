(** A checker for the relations of SpecKinds.v, to show that concrete
    declarations meet them.  No theorem of P_*.v depends on it but the examples. *)
From Verif Require Import SpecText SpecKinds NodeChain ResetRun.

Notation lexemes := (list (str * kind)) (only parsing).
Definition is_k (k : kind) (l : str * kind) : bool := kind_eqb (snd l) k.
Lemma is_k_true k l : is_k k l = true -> l = (fst l, k).
Proof. destruct l as [t k']. unfold is_k. cbn [snd fst]. by intros ->%kind_eqb_true. Qed.

(** up to the closing bracket *)
Fixpoint close (n : nat) (l r : kind) (ts : lexemes) : option (lexemes * str * lexemes) :=
  match n, ts with
  | S n, x :: ts =>
      if is_k r x then Some ([], fst x, ts)
      else if is_k l x then
        match close n l r ts with
        | Some (p, u, ts') => match close n l r ts' with Some (p', u', ts'') => Some (x :: p ++ (u, r) :: p', u', ts'') | None => None end
        | None => None
        end
      else match close n l r ts with Some (p, u, ts') => Some (x :: p, u, ts') | None => None end
  | _, _ => None
  end.
Lemma close_ok l r n : forall ts p u ts', close n l r ts = Some (p, u, ts') -> ts = p ++ (u, r) :: ts' /\ nested l r (map snd p).
Proof.
  induction n as [|n IH]; intros ts p u ts' H; [done|]. destruct ts as [|x ts]; [done|]. cbn [close] in H. destruct (is_k r x) eqn:Er.
  - injection H as <- <- <-. rewrite (is_k_true _ _ Er) at 1. split; [done|constructor].
  - destruct (is_k l x) eqn:El.
    + destruct (close n l r ts) as [[[p1 u1] ts1]|] eqn:E1; [|done]. destruct (close n l r ts1) as [[[p2 u2] ts2]|] eqn:E2; [|done]. injection H as <- <- <-.
      destruct (IH _ _ _ _ E1) as [-> N1]. destruct (IH _ _ _ _ E2) as [-> N2]. cbn [app map]. rewrite <- app_assoc, map_app. cbn [app map]. split; [done|].
      rewrite (is_k_true _ _ El). cbn [snd]. by constructor.
    + destruct (close n l r ts) as [[[p1 u1] ts1]|] eqn:E1; [|done]. injection H as <- <- <-. destruct (IH _ _ _ _ E1) as [-> N1]. split; [done|]. cbn [map].
      unfold is_k in *. constructor; [by apply kind_eqb_false|by apply kind_eqb_false|done].
Qed.
Lemma nested_squares ks : nested KSquareL KSquareR ks -> squares ks.
Proof. induction 1; constructor; done. Qed.
(** up to the first comma outside of brackets *)
Fixpoint cut (n : nat) (ts : lexemes) : option (lexemes * option (str * lexemes)) :=
  match n, ts with
  | S n, [] => Some ([], None)
  | S n, x :: ts =>
      if is_k KComma x then Some ([], Some (fst x, ts))
      else
        let over r := match close n (snd x) r ts with
                      | Some (p, u, ts') => match cut n ts' with Some (q, o) => Some (x :: p ++ (u, r) :: q, o) | None => None end
                      | None => None end in
        if is_k KSquareL x then over KSquareR else if is_k KParenL x then over KParenR
        else match cut n ts with Some (q, o) => Some (x :: q, o) | None => None end
  | _, _ => None
  end.
Definition glue (p : lexemes) (o : option (str * lexemes)) : lexemes := p ++ match o with Some (t, ts) => (t, KComma) :: ts | None => [] end.
Lemma cut_ok n : forall ts p o, cut n ts = Some (p, o) -> ts = glue p o.
Proof.
  induction n as [|n IH]; intros ts p o H; [done|]. destruct ts as [|x ts]; [injection H as <- <-; done|]. cbn [cut] in H. destruct (is_k KComma x) eqn:Ec.
  { injection H as <- <-. rewrite (is_k_true _ _ Ec) at 1. done. }
  assert (Ov : forall r, match close n (snd x) r ts with Some (p, u, ts') => match cut n ts' with Some (q, o) => Some (x :: p ++ (u, r) :: q, o) | None => None end | None => None end = Some (p, o) -> x :: ts = glue p o).
  { intros r H1. destruct (close n (snd x) r ts) as [[[p1 u1] ts1]|] eqn:E1; [|done]. destruct (cut n ts1) as [[q o1]|] eqn:E2; [|done]. injection H1 as <- <-.
    destruct (close_ok _ _ _ _ _ _ _ E1) as [-> _]. rewrite (IH _ _ _ E2). unfold glue. cbn [app]. rewrite <- app_assoc. done. }
  cbv zeta in H. destruct (is_k KSquareL x); [by apply (Ov KSquareR)|]. destruct (is_k KParenL x); [by apply (Ov KParenR)|].
  destruct (cut n ts) as [[q o1]|] eqn:E2; [|done]. injection H as <- <-. rewrite (IH _ _ _ E2). done.
Qed.

Fixpoint refine_fn (deep : bool) (n : nat) (name typ : kind) (b : bool) (ts : lexemes) : option lexemes :=
  match n, ts with
  | S n, [] => Some []
  | S n, x :: r =>
      if is_k KRaw x then (fun r' => (fst x, if b then typ else name) :: r') <$> refine_fn deep n name typ true r
      else if is_k KSquareL x then
        match close n KSquareL KSquareR r with
        | Some (ps, u, r) => (fun r' => x :: map (typed deep) ps ++ (u, KSquareR) :: r') <$> refine_fn deep n name typ b r
        | None => None
        end
      else if is_k KFunc x then
        match r with
        | y :: r => if is_k KParenL y then
            match close n KParenL KParenR r with
            | Some (ps, v, r) => match params_fn deep n KParamName KParamType ps with
                | Some ps' => (fun r' => x :: y :: ps' ++ (v, KParenR) :: r') <$> refine_fn deep n name typ b r
                | None => None end
            | None => None
            end else None
        | [] => None
        end
      else if mem_kind (snd x) [KParamName; KParamType; KComma; KParenL; KParenR] then None
      else (fun r' => x :: r') <$> refine_fn deep n name typ b r
  | _, _ => None
  end
with params_fn (deep : bool) (n : nat) (name typ : kind) (ts : lexemes) : option lexemes :=
  match n with
  | S n =>
      match cut n ts with
      | Some (p, o) => match refine_fn deep n name typ (bool_decide (words p = 1)) p with
          | Some p' => match o with
              | None => Some p'
              | Some (t, ts) => (fun r => p' ++ (t, KComma) :: r) <$> params_fn deep n name typ ts
              end
          | None => None end
      | None => None
      end
  | O => None
  end.
Lemma fmap_some {A B} (f : A -> B) (o : option A) b : f <$> o = Some b -> exists a, o = Some a /\ b = f a.
Proof. destruct o; [|done]. intros [= <-]. eauto. Qed.
Lemma refine_ok deep n : (forall name typ b ts ts', refine_fn deep n name typ b ts = Some ts' -> refines deep name typ b ts ts') /\
  (forall name typ ts ts', params_fn deep n name typ ts = Some ts' -> params deep name typ ts ts').
Proof.
  induction n as [|n [IH1 IH2]]; [by split|]. split.
  - intros name typ b ts ts' H. destruct ts as [|x r]; [injection H as <-; constructor|]. cbn [refine_fn] in H.
    destruct (is_k KRaw x) eqn:E1; [|destruct (is_k KSquareL x) eqn:E2; [|destruct (is_k KFunc x) eqn:E3]].
    + apply fmap_some in H as (r' & H & ->). rewrite (is_k_true _ _ E1) at 1. by constructor; apply IH1.
    + destruct (close n KSquareL KSquareR r) as [[[ps u] r1]|] eqn:Ec; [|done]. apply fmap_some in H as (r' & H & ->). destruct (close_ok _ _ _ _ _ _ _ Ec) as [-> Ne].
      rewrite (is_k_true _ _ E2). apply rf_square; [by apply nested_squares|by apply IH1].
    + destruct r as [|y r]; [done|]. destruct (is_k KParenL y) eqn:Ey; [|done]. destruct (close n KParenL KParenR r) as [[[ps v] r1]|] eqn:Ec; [|done].
      destruct (params_fn deep n KParamName KParamType ps) as [ps'|] eqn:Ep; [|done]. apply fmap_some in H as (r' & H & ->). destruct (close_ok _ _ _ _ _ _ _ Ec) as [-> _].
      rewrite (is_k_true _ _ E3), (is_k_true _ _ Ey). constructor; [by apply IH2|by apply IH1].
    + destruct (mem_kind _ _) eqn:Em; [done|]. apply fmap_some in H as (r' & H & ->). destruct x as [t k]. cbn [snd] in *. unfold is_k in *. cbn [snd] in *. apply mem_kind_false in Em.
      apply kind_eqb_false in E1, E2, E3. apply rf_other; [|by apply IH1].
      intros Hk. rewrite !elem_of_cons in Hk. rewrite !elem_of_cons in Em. tauto.
  - intros name typ ts ts' H. cbn [params_fn] in H. destruct (cut n ts) as [[p o]|] eqn:Ec; [|done]. rewrite (cut_ok _ _ _ _ Ec).
    destruct (refine_fn deep n name typ _ p) as [p'|] eqn:Er; [|done]. apply IH1 in Er. unfold glue. destruct o as [[t ts1]|].
    + apply fmap_some in H as (r' & H & ->). apply pm_more; [done|by apply IH2].
    + injection H as <-. rewrite app_nil_r. by apply pm_one.
Qed.
(** [(params)...] *)
Definition parens_fn (n : nat) (name typ : kind) (ts : lexemes) : option (lexemes * lexemes * lexemes) :=
  match ts with
  | x :: r => if is_k KParenL x then
      match close n KParenL KParenR r with
      | Some (ps, u, r) => match params_fn false n name typ ps with Some ps' => Some (x :: ps ++ [(u, KParenR)], x :: ps' ++ [(u, KParenR)], r) | None => None end
      | None => None end else None
  | [] => None
  end.
Lemma parens_ok n name typ ts p p' r : parens_fn n name typ ts = Some (p, p', r) -> ts = p ++ r /\ parens name typ p p'.
Proof.
  destruct ts as [|x ts]; [done|]. cbn [parens_fn]. destruct (is_k KParenL x) eqn:Ex; [|done]. destruct (close n KParenL KParenR ts) as [[[ps u] r1]|] eqn:Ec; [|done].
  destruct (params_fn false n name typ ps) as [ps'|] eqn:Ep; [|done]. intros [= <- <- <-]. destruct (close_ok _ _ _ _ _ _ _ Ec) as [-> _]. apply refine_ok in Ep.
  rewrite (is_k_true _ _ Ex). cbn [app]. rewrite <- app_assoc. split; [done|]. by constructor.
Qed.
Fixpoint word_fn (ts : lexemes) : lexemes * lexemes :=
  match ts with
  | [] => ([], [])
  | x :: r => if mem_kind (snd x) [KSpace; KNewLine; KCurlyL; KComment] then ([], ts) else let '(w, r) := word_fn r in (x :: w, r)
  end.
Lemma word_fn_ok ts : ts = fst (word_fn ts) ++ snd (word_fn ts) /\ forall k, k ∈ map snd (fst (word_fn ts)) -> k ∉ [KSpace; KNewLine; KCurlyL; KComment].
Proof.
  induction ts as [|x ts [IH1 IH2]]; [split; [done|by intros k Hk%elem_of_nil]|]. cbn [word_fn]. destruct (mem_kind _ _) eqn:Em; [split; [done|by intros k Hk%elem_of_nil]|].
  destruct (word_fn ts) as [w r]. cbn [fst snd map app] in *. split; [by f_equal|]. intros k [->|Hk]%elem_of_cons; [by apply mem_kind_false|by apply IH2].
Qed.
Fixpoint results_fn (n : nat) (ts : lexemes) : option (lexemes * lexemes * lexemes) :=
  let stop := Some ([], [], ts) in
  match n, ts with
  | S n, s :: r =>
      if is_k KSpace s then
        match parens_fn n KParamName KParamType r with
        | Some (p, p', r) => match results_fn n r with Some (q, q', r) => Some (s :: p ++ q, s :: p' ++ q', r) | None => None end
        | None =>
            let '(w, r) := word_fn r in
            match w with
            | [] => stop
            | x :: _ => if mem_kind (snd x) [KParenL; KFunc] then None
                        else match results_fn n r with Some (q, q', r) => Some (s :: w ++ q, s :: merged w :: q', r) | None => None end
            end
        end
      else stop
  | _, _ => stop
  end.
Lemma results_ok n : forall ts q q' r, results_fn n ts = Some (q, q', r) -> ts = q ++ r /\ results q q'.
Proof.
  induction n as [|n IH]; intros ts q q' r H; [injection H as <- <- <-; split; [done|constructor]|].
  destruct ts as [|s ts]; [injection H as <- <- <-; split; [done|constructor]|]. cbn [results_fn] in H. cbv zeta in H.
  destruct (is_k KSpace s) eqn:Es; [|injection H as <- <- <-; split; [done|constructor]].
  destruct (parens_fn n KParamName KParamType ts) as [[[p p'] r1]|] eqn:Ep.
  - destruct (results_fn n r1) as [[[q1 q1'] r2]|] eqn:Er; [|done]. injection H as <- <- <-. apply parens_ok in Ep as [-> P]. apply IH in Er as [-> R].
    rewrite (is_k_true _ _ Es). cbn [app]. rewrite <- app_assoc. split; [done|by constructor].
  - pose proof (word_fn_ok ts) as [Ew Hw]. destruct (word_fn ts) as [w r1]. cbn [fst snd] in *. destruct w as [|x w]; [injection H as <- <- <-; split; [done|constructor]|].
    destruct (mem_kind (snd x) _) eqn:Em; [done|]. destruct (results_fn n r1) as [[[q1 q1'] r2]|] eqn:Er; [|done]. injection H as <- <- <-. apply IH in Er as [-> R].
    rewrite Ew, (is_k_true _ _ Es). cbn [app]. rewrite <- app_assoc. split; [done|]. apply (rs_word _ (x :: w)); [|done]. split; [done|]. split; [done|].
    intros k [= <-]. apply mem_kind_false in Em. rewrite !elem_of_cons in Em. tauto.
Qed.
Definition signature_fn (n : nat) (ts : lexemes) : option (lexemes * lexemes * lexemes) :=
  match ts with
  | x :: r => if is_k KRaw x then
      match r with
      | y :: r1 => if is_k KSquareL y then
          match close n KSquareL KSquareR r1 with
          | Some (gs, u, r) => match parens_fn n KParamName KParamType r with
              | Some (p, p', r) => match results_fn n r with
                  | Some (q, q', r) => Some (x :: y :: gs ++ (u, KSquareR) :: p ++ q, (fst x, KFuncName) :: y :: gs ++ (u, KSquareR) :: p' ++ q', r)
                  | None => None end
              | None => None end
          | None => None end
        else match parens_fn n KParamName KParamType r with
              | Some (p, p', r) => match results_fn n r with Some (q, q', r) => Some (x :: p ++ q, (fst x, KFuncName) :: p' ++ q', r) | None => None end
              | None => None end
      | [] => None end
    else None
  | [] => None
  end.
Lemma signature_ok n ts q q' r : signature_fn n ts = Some (q, q', r) -> ts = q ++ r /\ signature q q'.
Proof.
  destruct ts as [|x ts]; [done|]. cbn [signature_fn]. destruct (is_k KRaw x) eqn:Ex; [|done]. destruct ts as [|y ts]; [done|]. destruct (is_k KSquareL y) eqn:Ey.
  - destruct (close n KSquareL KSquareR ts) as [[[gs u] r1]|] eqn:Ec; [|done]. destruct (parens_fn _ _ _ r1) as [[[p p'] r2]|] eqn:Ep; [|done].
    destruct (results_fn n r2) as [[[q1 q1'] r3]|] eqn:Er; [|done]. intros [= <- <- <-]. destruct (close_ok _ _ _ _ _ _ _ Ec) as [-> Ne]. apply parens_ok in Ep as [-> P]. apply results_ok in Er as [-> R].
    rewrite (is_k_true _ _ Ex), (is_k_true _ _ Ey). cbn [app fst]. rewrite <- app_assoc. cbn [app]. rewrite <- app_assoc. split; [done|]. constructor; [by apply nested_squares|done|by constructor].
  - destruct (parens_fn _ _ _ (y :: ts)) as [[[p p'] r2]|] eqn:Ep; [|done].
    destruct (results_fn n r2) as [[[q1 q1'] r3]|] eqn:Er; [|done]. intros [= <- <- <-]. apply parens_ok in Ep as [-> P]. apply results_ok in Er as [-> R].
    rewrite (is_k_true _ _ Ex). cbn [app fst]. rewrite <- app_assoc. split; [done|]. constructor; [done|by constructor].
Qed.
Definition line_end_fn (ts : lexemes) : option (lexemes * lexemes) :=
  match ts with
  | x :: r => if is_k KNewLine x then Some ([x], r)
              else match r with y :: z :: r => if is_k KSpace x && is_k KComment y && is_k KNewLine z then Some ([x; y; z], r) else None | _ => None end
  | [] => None
  end.
Lemma line_end_fn_ok ts e r : line_end_fn ts = Some (e, r) -> ts = e ++ r /\ line_end e.
Proof.
  destruct ts as [|x ts]; [done|]. cbn [line_end_fn]. destruct (is_k KNewLine x) eqn:E.
  - intros [= <- <-]. split; [done|]. rewrite (is_k_true _ _ E). constructor.
  - destruct ts as [|y [|z ts]]; [done|done|]. destruct (is_k KSpace x) eqn:E1; [|done]. destruct (is_k KComment y) eqn:E2; [|done]. destruct (is_k KNewLine z) eqn:E3; [|done].
    intros [= <- <-]. split; [done|]. rewrite (is_k_true _ _ E1), (is_k_true _ _ E2), (is_k_true _ _ E3). constructor.
Qed.
Definition sig_end_fn (n : nat) (e : lexemes) : bool :=
  match line_end_fn e, e with
  | Some _, _ => true
  | None, x :: y :: r => is_k KSpace x && is_k KCurlyL y &&
      match close n KCurlyL KCurlyR r with
      | Some (_, _, z) => match line_end_fn z with Some _ => true | None => false end
      | _ => false
      end
  | _, _ => false
  end.
Lemma sig_end_ok n e : sig_end_fn n e = true -> sig_end e.
Proof.
  unfold sig_end_fn. destruct (line_end_fn e) as [[e1 r]|] eqn:E1; [intros _; apply line_end_fn_ok in E1 as [-> L]; by constructor|].
  destruct e as [|x [|y e]]; [done|done|]. intros [[E2 E3]%andb_true_iff H]%andb_true_iff. destruct (close n KCurlyL KCurlyR e) as [[[b u] z]|] eqn:Ec; [|done].
  destruct (line_end_fn z) as [[e1 r]|] eqn:E4; [|done]. apply line_end_fn_ok in E4 as [-> L].
  destruct (close_ok _ _ _ _ _ _ _ Ec) as [-> Ne]. rewrite (is_k_true _ _ E2), (is_k_true _ _ E3). by constructor.
Qed.
(** no closing brace is followed by a parenthesis *)
Fixpoint quiet (ks : list kind) : bool :=
  match ks with
  | a :: r => negb (kind_eqb a KCurlyR && match r with b :: _ => kind_eqb b KParenL | [] => false end) && quiet r
  | [] => true
  end.
Lemma quiet_ok ks : quiet ks = true -> ~ called_at_once ks.
Proof.
  intros H (xs & ys & -> & _). induction xs as [|x xs IH]; cbn [app quiet] in H; apply andb_true_iff in H as [H1 H2]; [|by apply IH].
  rewrite !(proj2 (kind_eqb_true _ _) eq_refl) in H1. done.
Qed.
Definition func_decl_fn (n : nat) (ts : lexemes) : option lexemes :=
  match ts with
  | f :: s :: r => if is_k KFunc f && is_k KSpace s then
      match parens_fn n KMethodReceiverName KMethodReceiverType r with
      | Some (p, p', s2 :: r) =>
          if is_k KSpace s2 && quiet (map snd ts) && negb (mem_kind KFunc (map snd p)) then
            match signature_fn n r with
            | Some (_, q', e) => if sig_end_fn n e then Some (f :: s :: p' ++ s2 :: q' ++ e) else None
            | None => None end
          else None
      | Some _ => None
      | None => match signature_fn n r with
            | Some (_, q', e) => if sig_end_fn n e then Some (f :: s :: q' ++ e) else None
            | None => None end
      end else None
  | _ => None
  end.
Lemma func_decl_ok n ts ts' : func_decl_fn n ts = Some ts' -> func_decl (map snd ts) ts ts'.
Proof.
  destruct ts as [|f [|s r]]; [done|done|]. set (all := f :: s :: r). cbn [func_decl_fn all]. fold all. destruct (is_k KFunc f) eqn:Ef; [|done]. destruct (is_k KSpace s) eqn:Es; [|done]. cbn [andb].
  destruct (parens_fn n _ _ r) as [[[p p'] r1]|] eqn:Ep.
  - destruct r1 as [|s2 r1]; [done|]. destruct (is_k KSpace s2 && quiet (map snd all) && negb (mem_kind KFunc (map snd p))) eqn:Eq; [|done].
    apply andb_true_iff in Eq as [Eq H3]. apply andb_true_iff in Eq as [H1 H2]. apply negb_true_iff, mem_kind_false in H3. apply quiet_ok in H2.
    destruct (signature_fn n r1) as [[[q q'] e]|] eqn:Eg; [|done]. destruct (sig_end_fn n e) eqn:Ee; [|done]. intros [= <-].
    apply parens_ok in Ep as [-> P]. apply signature_ok in Eg as [-> G]. apply sig_end_ok in Ee.
    unfold all in *. clear all. rewrite (is_k_true _ _ Ef), (is_k_true _ _ Es), (is_k_true _ _ H1) in *. by constructor.
  - destruct (signature_fn n r) as [[[q q'] e]|] eqn:Eg; [|done]. destruct (sig_end_fn n e) eqn:Ee; [|done]. intros [= <-]. apply signature_ok in Eg as [-> G]. apply sig_end_ok in Ee.
    unfold all in *. clear all. rewrite (is_k_true _ _ Ef), (is_k_true _ _ Es). by constructor.
Qed.
