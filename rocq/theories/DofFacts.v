(** Facts about problem types, solver choice and the degree-of-freedom check
    (C26, C27). *)
From Verif Require Import Base BaseFacts Num NumFacts UnitModel UnitFacts Sympy Node Build EquationModel ModelModel ProblemModel
  SpecUnits UnitThms SpecExpr SpecQty QtyFacts SpecModel BuildFacts EquationFacts ModelFacts SpecInc IncFacts SpecCall CallFacts
  SpecProblem ProblemFacts SessionFacts.
From Coq Require Import Reals Permutation.
Notation num := Verif.Num.num.

(** ** Problem type *)
Lemma group_some s b t g : block_for s b -> g = filter (has_type t) (b_eqs b) -> (negb (is_empty g) = true <-> some_of t (b_eqs b)).
Proof.
  intros B ->. unfold some_of. split.
  - destruct (filter (has_type t) (b_eqs b)) as [|e r] eqn:E; [discriminate|]. intros _. exists e.
    assert (In e (filter (has_type t) (b_eqs b))) as H by (rewrite E; now left).
    apply filter_In in H. now rewrite has_type_spec in H.
  - intros (e & He & T). assert (In e (filter (has_type t) (b_eqs b))) as H by (apply filter_In; now rewrite has_type_spec).
    destruct (filter (has_type t) (b_eqs b)); [destruct H|reflexivity].
Qed.

Lemma block_type s b : block_for s b ->
  (problem_type b = Some PTDiff <-> some_of CDifferential (b_eqs b) /\ ~ some_of CLinear (b_eqs b) /\ ~ some_of CNonlinear (b_eqs b)) /\
  (problem_type b = Some PTDae <-> some_of CDifferential (b_eqs b) /\ (some_of CLinear (b_eqs b) \/ some_of CNonlinear (b_eqs b))) /\
  (problem_type b = Some PTNonlinear <-> some_of CNonlinear (b_eqs b) /\ ~ some_of CDifferential (b_eqs b)) /\
  (problem_type b = Some PTLinear <-> some_of CLinear (b_eqs b) /\ ~ some_of CNonlinear (b_eqs b) /\ ~ some_of CDifferential (b_eqs b)) /\
  (problem_type b = None <-> b_eqs b = []).
Proof.
  intros B. destruct (bf_groups _ _ B) as (L1 & L2 & L3).
  assert (A1 := group_some s b CLinear _ B L1). assert (A2 := group_some s b CNonlinear _ B L2). assert (A3 := group_some s b CDifferential _ B L3).
  assert (N : b_eqs b = [] <-> ~ some_of CLinear (b_eqs b) /\ ~ some_of CNonlinear (b_eqs b) /\ ~ some_of CDifferential (b_eqs b)).
  { split.
    - intros E. rewrite E. repeat split; intros (e & [] & _).
    - intros (X & Y & Z). destruct (b_eqs b) as [|e r] eqn:E; [reflexivity|exfalso].
      destruct (bf_ok _ _ B e) as (_ & _ & _ & _ & _ & T & _); [rewrite E; now left|].
      destruct (eq_type e) as [[]|] eqn:Te; [apply X|apply Y|apply Z|congruence]; exists e; (split; [now left|exact Te]). }
  rewrite N. unfold problem_type.
  destruct (negb (is_empty (b_lin b))), (negb (is_empty (b_nonlin b))), (negb (is_empty (b_diff b))); simpl;
    intuition (try discriminate).
Qed.

Lemma solver_choice b conf : choose_solver conf b =
  match conf with
  | Some s => if existsb (String.eqb s) ["linear"; "nonlinear"; "differential"; "differential-algebraic"]
              then match problem_type b with
                   | Some PTLinear => Ok LASolver | Some PTNonlinear => Ok NLASolver
                   | Some PTDiff => Ok DSolver | Some PTDae => Ok DaeSolver
                   | None => Raise EUnexpectedValue end
              else Raise EUnexpectedValue
  | None => match problem_type b with
            | Some PTLinear => Ok LASolver | Some PTNonlinear => Ok NLASolver
            | Some PTDiff => Ok DSolver | Some PTDae => Ok DaeSolver
            | None => Raise EUnexpectedValue end
  end.
Proof.
  unfold choose_solver. destruct conf as [s|].
  - unfold existsb. rewrite Bool.orb_false_r, !Bool.orb_assoc. reflexivity.
  - unfold create_solver. destruct (problem_type b) as [[]|]; reflexivity.
Qed.

(** ** Substrings of printed expressions *)
Fixpoint lacks (c : ascii) (s : string) : bool :=
  match s with EmptyString => true | String d r => negb (Ascii.eqb c d) && lacks c r end.

Lemma one_word_lacks c s : separator c = true -> one_word s = true -> lacks c s = true.
Proof.
  intros Hc. induction s as [|d s IH]; simpl; [reflexivity|]. intros H. apply andb_prop in H. destruct H as [H1 H2].
  rewrite (IH H2). destruct (Ascii.eqb_spec c d) as [->|_]; [now rewrite Hc in H1|reflexivity].
Qed.

Lemma prefix_sep c w : lacks c w = true -> forall a b, String.prefix w (a ++ String c b) = String.prefix w a.
Proof.
  induction w as [|d w IH]; intros H a b; [destruct a; reflexivity|].
  simpl in H. apply andb_prop in H. destruct H as [H1 H2]. apply Bool.negb_true_iff, Ascii.eqb_neq in H1.
  destruct a as [|e a]; simpl.
  - destruct (ascii_dec d c); [congruence|reflexivity].
  - destruct (ascii_dec d e); [now apply IH|reflexivity].
Qed.
Lemma prefix_nil s : String.prefix "" s = true.
Proof. destruct s; reflexivity. Qed.
Lemma contains_nil s : str_contains "" s = true.
Proof. destruct s; reflexivity. Qed.

Lemma contains_sep c w : lacks c w = true -> forall a b,
  str_contains w (a ++ String c b) = str_contains w a || str_contains w b.
Proof.
  intros H a b. induction a as [|d a IH].
  - change (("" ++ String c b)%string) with (String c b). destruct w as [|d w]; [now rewrite !contains_nil|].
    simpl in H. apply andb_prop in H. destruct H as [H1 H2]. apply Bool.negb_true_iff, Ascii.eqb_neq in H1.
    cbn [str_contains String.prefix]. destruct (ascii_dec d c); [congruence|]. reflexivity.
  - change ((String d a ++ String c b)%string) with (String d (a ++ String c b)).
    cbn [str_contains]. assert (P := prefix_sep c w H (String d a) b).
    change ((String d a ++ String c b)%string) with (String d (a ++ String c b)) in P. rewrite P.
    destruct (String.prefix w (String d a)); [reflexivity|]. exact IH.
Qed.

Lemma contains_self s : str_contains s s = true.
Proof.
  assert (P : String.prefix s s = true).
  { induction s as [|c s IH]; simpl; [reflexivity|]. destruct (ascii_dec c c); congruence. }
  destruct s as [|c s]; [reflexivity|]. cbn [str_contains]. now rewrite P.
Qed.
Lemma contains_char_l c a b : lacks c a = false -> lacks c (a ++ b)%string = false.
Proof. induction a as [|d a IH]; simpl; [discriminate|]. destruct (Ascii.eqb c d); simpl; auto. Qed.

Lemma prefix_lacks c w : forall s, String.prefix w s = true -> lacks c s = true -> lacks c w = true.
Proof.
  induction w as [|d w IH]; intros [|e s] P L; simpl in *; try reflexivity; try discriminate.
  destruct (ascii_dec d e) as [->|]; [|discriminate]. apply andb_prop in L. destruct L as [L1 L2]. rewrite L1. simpl. now apply (IH s).
Qed.
Lemma contains_lacks c w s : lacks c w = false -> lacks c s = true -> str_contains w s = false.
Proof.
  intros Hw. induction s as [|d s IH]; intros L.
  - cbn [str_contains]. destruct (String.prefix w "") eqn:P; [|reflexivity]. apply prefix_lacks with (c := c) in P; [congruence|reflexivity].
  - cbn [str_contains]. destruct (String.prefix w (String d s)) eqn:P.
    + apply prefix_lacks with (c := c) in P; [congruence|exact L].
    + apply IH. simpl in L. now apply andb_prop in L.
Qed.
Lemma contains_char c s : str_contains (String c "") s = negb (lacks c s).
Proof.
  induction s as [|d s IH]; [reflexivity|]. cbn [str_contains String.prefix lacks].
  destruct (ascii_dec c d) as [->|Hne].
  - now rewrite Ascii.eqb_refl, prefix_nil.
  - apply Ascii.eqb_neq in Hne. rewrite Hne. simpl. exact IH.
Qed.

Section Words.
Variable pn : num -> string.
Variable w : string.
Hypothesis Hw : one_word w = true.
(** The word is not part of what is printed for numbers and functions. *)
Hypothesis Hnum : forall n, str_contains w (pn n) = false.
Hypothesis Hfun : forall f, In f ["Symbol"; "Add"; "Mul"; "Pow"; "log"; "Abs"; "exp"; "sin"; "cos"; "tan"; "Min"; "Max"; ""] -> str_contains w f = false.

Let has := str_contains w.
Lemma sep_split c a b : separator c = true -> str_contains w (a ++ String c b) = str_contains w a || str_contains w b.
Proof. intros Hc. apply contains_sep. now apply one_word_lacks. Qed.
Lemma call1_has f a : str_contains w (call1 f a) = str_contains w f || (str_contains w a || str_contains w "").
Proof.
  unfold call1. change (f ++ "(" ++ a ++ ")")%string with (f ++ String "("%char (a ++ String ")"%char ""))%string.
  rewrite (sep_split "("%char f) by reflexivity. now rewrite (sep_split ")"%char a "") by reflexivity.
Qed.
Lemma call2_has f a b : str_contains w (call2 f a b) = str_contains w f || (str_contains w a || (str_contains w "" || (str_contains w b || str_contains w ""))).
Proof.
  unfold call2.
  change (f ++ "(" ++ a ++ ", " ++ b ++ ")")%string
    with (f ++ String "("%char (a ++ String ","%char ("" ++ String " "%char (b ++ String ")"%char ""))))%string.
  rewrite (sep_split "("%char f) by reflexivity. f_equal.
  rewrite (sep_split ","%char a) by reflexivity. f_equal.
  rewrite (sep_split " "%char "") by reflexivity. f_equal. now rewrite (sep_split ")"%char b "") by reflexivity.
Qed.
Lemma word_nil : str_contains w "" = false.
Proof. apply Hfun. simpl. tauto. Qed.

Lemma srepr_has e : der_free e = true ->
  (str_contains w (srepr pn e) = true <-> exists y, In y (fsyms e) /\ str_contains w y = true).
Proof.
  assert (Two : forall f a b, In f ["Symbol"; "Add"; "Mul"; "Pow"; "log"; "Abs"; "exp"; "sin"; "cos"; "tan"; "Min"; "Max"; ""] ->
    (str_contains w (call2 f a b) = true <-> str_contains w a = true \/ str_contains w b = true)).
  { intros f a b Hf. rewrite call2_has, (Hfun f Hf), word_nil. rewrite !Bool.orb_false_r. simpl. apply Bool.orb_true_iff. }
  assert (One : forall f a, In f ["Symbol"; "Add"; "Mul"; "Pow"; "log"; "Abs"; "exp"; "sin"; "cos"; "tan"; "Min"; "Max"; ""] ->
    (str_contains w (call1 f a) = true <-> str_contains w a = true)).
  { intros f a Hf. rewrite call1_has, (Hfun f Hf), word_nil. now rewrite !Bool.orb_false_r. }
  assert (Join : forall (A B C D : list string), (exists y, In y (A ++ B) /\ str_contains w y = true) <->
     (exists y, In y A /\ str_contains w y = true) \/ (exists y, In y B /\ str_contains w y = true)).
  { intros A B _ _. split.
    - intros (y & Hy & E). apply in_app_iff in Hy. destruct Hy; eauto.
    - intros [(y & Hy & E)|(y & Hy & E)]; exists y; rewrite in_app_iff; auto. }
  induction e as [n|x|a IHa b IHb|a IHa b IHb|a IHa b IHb|a IHa b IHb|a IHa b IHb|f a IHa|a IHa b IHb|a IHa b IHb|x t];
    intros D; simpl in D; try (apply andb_prop in D; destruct D as [D1 D2]); cbn [srepr fsyms].
  - rewrite Hnum. split; [discriminate|intros (y & [] & _)].
  - rewrite One by (simpl; tauto).
    change ("'" ++ x ++ "'")%string with ("" ++ String "'"%char (x ++ String "'"%char ""))%string.
    rewrite (sep_split "'"%char "") by reflexivity. rewrite (sep_split "'"%char x "") by reflexivity. rewrite word_nil, Bool.orb_false_r. simpl.
    split; [eauto|intros (y & [<-|[]] & E); exact E].
  - rewrite Two by (simpl; tauto). rewrite (IHa D1), (IHb D2), Join by exact []. tauto.
  - rewrite Two by (simpl; tauto). rewrite Two by (simpl; tauto). rewrite Hnum. rewrite (IHa D1), (IHb D2), Join by exact [].
    intuition discriminate.
  - rewrite Two by (simpl; tauto). rewrite (IHa D1), (IHb D2), Join by exact []. tauto.
  - rewrite Two by (simpl; tauto). rewrite Two by (simpl; tauto). rewrite Hnum. rewrite (IHa D1), (IHb D2), Join by exact [].
    intuition discriminate.
  - rewrite Two by (simpl; tauto). rewrite (IHa D1), (IHb D2), Join by exact []. tauto.
  - rewrite One by (destruct f; simpl; tauto). exact (IHa D).
  - rewrite Two by (simpl; tauto). rewrite (IHa D1), (IHb D2), Join by exact []. tauto.
  - rewrite Two by (simpl; tauto). rewrite (IHa D1), (IHb D2), Join by exact []. tauto.
  - discriminate.
Qed.
End Words.

(** Members of an expression have its symbols. *)
Lemma terms_syms e : flat_map fsyms (terms e) = fsyms e.
Proof.
  induction e; try (cbn [terms flat_map]; now rewrite app_nil_r).
  - cbn [terms fsyms]. rewrite flat_map_app. congruence.
  - cbn [terms fsyms]. rewrite flat_map_app. f_equal; [exact IHe1|]. rewrite <- IHe2. clear.
    induction (terms e2) as [|x l IH]; simpl; [reflexivity|]. now rewrite IH.
Qed.
Lemma factors_syms e : flat_map fsyms (factors e) = fsyms e.
Proof.
  induction e; try (cbn [factors flat_map]; now rewrite app_nil_r).
  - cbn [factors fsyms]. rewrite flat_map_app. congruence.
  - cbn [factors fsyms]. rewrite flat_map_app. f_equal; [exact IHe1|]. rewrite <- IHe2. clear.
    induction (factors e2) as [|x l IH]; simpl; [reflexivity|]. now rewrite app_nil_r, IH.
Qed.
Lemma args_syms e : der_free e = true -> (forall x, e <> SSym x) -> flat_map fsyms (sx_args e) = fsyms e.
Proof.
  intros D N. destruct e; try (now cbn; rewrite ?app_nil_r); try (cbn [sx_args]; apply terms_syms); try (cbn [sx_args]; apply factors_syms).
  now destruct (N x).
Qed.
Lemma forallb_map_impl {A} (f : A -> bool) (g : A -> A) l : (forall x, f x = true -> f (g x) = true) -> forallb f l = true -> forallb f (map g l) = true.
Proof. intros H. induction l as [|x l IH]; simpl; [reflexivity|]. intros K. apply andb_prop in K. destruct K. rewrite H by assumption. now apply IH. Qed.
Lemma terms_der e : der_free e = true -> forallb der_free (terms e) = true.
Proof.
  induction e; cbn [terms]; intros D; try (cbn [forallb]; rewrite D; reflexivity).
  - simpl in D. apply andb_prop in D. destruct D. rewrite forallb_app, IHe1, IHe2; auto.
  - simpl in D. apply andb_prop in D. destruct D. rewrite forallb_app, IHe1 by assumption. simpl.
    apply forallb_map_impl; [intros x Hx; exact Hx|now apply IHe2].
Qed.
Lemma factors_der e : der_free e = true -> forallb der_free (factors e) = true.
Proof.
  induction e; cbn [factors]; intros D; try (cbn [forallb]; rewrite D; reflexivity).
  - simpl in D. apply andb_prop in D. destruct D. rewrite forallb_app, IHe1, IHe2; auto.
  - simpl in D. apply andb_prop in D. destruct D. rewrite forallb_app, IHe1 by assumption. simpl.
    apply forallb_map_impl; [intros x Hx; simpl; now rewrite Hx|now apply IHe2].
Qed.
Lemma args_der e : der_free e = true -> forallb der_free (sx_args e) = true.
Proof.
  intros D. destruct e; cbn [sx_args]; try reflexivity; try (now apply terms_der); try (now apply factors_der); simpl in *.
  - apply andb_prop in D. destruct D as [-> ->]. reflexivity.
  - now rewrite D.
  - apply andb_prop in D. destruct D as [-> ->]. reflexivity.
  - apply andb_prop in D. destruct D as [-> ->]. reflexivity.
Qed.

Lemma fun_words c f : c = "_"%char ->
  In f ["Symbol"; "Add"; "Mul"; "Pow"; "log"; "Abs"; "exp"; "sin"; "cos"; "tan"; "Min"; "Max"; ""] -> lacks c f = true.
Proof. intros -> H. simpl in H. repeat (destruct H as [<-|H]; [reflexivity|]). destruct H. Qed.

Lemma member_exact pn t a : prints_numbers pn -> one_word t = true -> str_contains "_" t = true ->
  der_free a = true -> readable t a -> member_has pn (Some [t]) a = Ok (mem_str t (fsyms a)).
Proof.
  intros P W U D R. unfold member_has. f_equal. cbn [existsb]. rewrite Bool.orb_false_r.
  assert (Lt : lacks "_" t = false) by (rewrite contains_char in U; now apply Bool.negb_true_iff in U).
  assert (A : str_contains "Derivative" (srepr pn a) = false).
  { destruct (str_contains "Derivative" (srepr pn a)) eqn:E; [|reflexivity].
    apply (srepr_has pn "Derivative" eq_refl) in E.
    - destruct E as (y & Hy & E). destruct (R y Hy) as [_ E']. congruence.
    - intros n. apply P.
    - intros f Hf. simpl in Hf. repeat (destruct Hf as [<-|Hf]; [reflexivity|]). destruct Hf.
    - exact D. }
  rewrite A. simpl. rewrite Bool.andb_true_r.
  assert (B : str_contains t (srepr pn a) = true <-> In t (fsyms a)).
  { rewrite (srepr_has pn t W).
    - split.
      + intros (y & Hy & E). destruct (R y Hy) as [E' _]. now rewrite <- (E' E).
      + intros H. exists t. split; [exact H|apply contains_self].
    - intros n. apply contains_lacks with (c := "_"%char); [exact Lt|]. destruct (P n) as [Pn _]. rewrite contains_char in Pn.
      now apply Bool.negb_false_iff in Pn.
    - intros f Hf. apply contains_lacks with (c := "_"%char); [exact Lt|]. now apply fun_words.
    - exact D. }
  destruct (str_contains t (srepr pn a)) eqn:E.
  - symmetry. apply mem_str_spec. now apply B.
  - symmetry. destruct (mem_str t (fsyms a)) eqn:M; [|reflexivity]. apply mem_str_spec in M. apply B in M. congruence.
Qed.

Lemma any_res_exact {A} (f : A -> res bool) (g : A -> bool) l : (forall x, In x l -> f x = Ok (g x)) -> any_res f l = Ok (existsb g l).
Proof.
  induction l as [|x l IH]; intros H; simpl; [reflexivity|]. rewrite (H x (or_introl eq_refl)). simpl.
  destruct (g x); [reflexivity|]. apply IH. intros y Hy. apply H. now right.
Qed.

(** An expression other than the bare time symbol. *)
Lemma members_exact pn t s : prints_numbers pn -> one_word t = true -> str_contains "_" t = true ->
  der_free s = true -> readable t s -> s <> SSym t -> any_res (member_has pn (Some [t])) (sx_args s) = Ok (mem_str t (fsyms s)).
Proof.
  intros P W U D R N. destruct (existsb (fun x => match s with SSym y => String.eqb x y | _ => false end) (fsyms s)) eqn:Sy.
  - destruct s; try (apply existsb_exists in Sy; destruct Sy as (? & _ & Sy); discriminate). cbn. unfold mem_str. simpl.
    destruct (String.eqb_spec t x) as [->|_]; [congruence|reflexivity].
  - assert (Hs : forall x, s <> SSym x). { intros x ->. simpl in Sy. now rewrite String.eqb_refl in Sy. }
    assert (Da := args_der _ D). rewrite forallb_forall in Da. assert (Fs := args_syms s D Hs).
    assert (Hin : forall a, In a (sx_args s) -> incl (fsyms a) (fsyms s)).
    { intros a Ha y Hy. rewrite <- Fs. apply in_flat_map. eauto. }
    rewrite (any_res_exact _ (fun a => mem_str t (fsyms a))).
    + f_equal. destruct (mem_str t (fsyms s)) eqn:M.
      * apply mem_str_spec in M. rewrite <- Fs in M. apply in_flat_map in M. destruct M as (a & Ha & Hy).
        apply existsb_exists. exists a. split; [exact Ha|now apply mem_str_spec].
      * destruct (existsb _ (sx_args s)) eqn:Ex; [|reflexivity]. apply existsb_exists in Ex. destruct Ex as (a & Ha & Hy).
        apply mem_str_spec in Hy. apply (Hin a Ha) in Hy. apply mem_str_spec in Hy. congruence.
    + intros a Ha. apply member_exact; auto. intros y Hy. apply R. exact (Hin a Ha y Hy).
Qed.

(** ** The check *)
Lemma unspecified_count h d : (forall x l, In (x, l) d -> hget h l <> None) -> unspecified h d = Ok (unspecified_pars h d).
Proof.
  unfold unspecified_pars. induction d as [|[x l] d IH]; intros H; [reflexivity|]. cbn [unspecified filter snd].
  destruct (hget h l) as [q|] eqn:G; [|now destruct (H x l (or_introl eq_refl))].
  rewrite IH by (intros y i Hin; apply (H y i); now right). simpl. destruct (q_spec q); reflexivity.
Qed.

Lemma has_var_exact pn t es : prints_numbers pn -> one_word t = true -> str_contains "_" t = true ->
  (forall e s, In e es -> analysed e s -> der_free s = true /\ readable t s /\ s <> SSym t) ->
  (forall e, In e es -> exists s, analysed e s) ->
  exists b, has_var pn (Some [t]) es = Ok b /\ (b = true <-> exists e s, In e es /\ analysed e s /\ In t (fsyms s)).
Proof.
  intros P W U H T. unfold has_var.
  rewrite (any_res_exact _ (fun e => match get_symbolic e None SRhs with Ok s => mem_str t (fsyms s) | Raise _ => false end)).
  - eexists. split; [reflexivity|]. rewrite existsb_exists. split.
    + intros (e & He & E). destruct (get_symbolic e None SRhs) as [s|] eqn:G; [|discriminate]. apply mem_str_spec in E. exists e, s. auto.
    + intros (e & s & He & G & E). exists e. split; [exact He|]. unfold analysed in G. rewrite G. now apply mem_str_spec.
  - intros e He. destruct (T e He) as [s G]. unfold analysed in *. rewrite G. destruct (H e s He G) as (A & B & C).
    now apply members_exact.
Qed.

Lemma dof_exact pn acts s b t : prints_numbers pn -> resolved acts s b -> pr_time (snd s) = Some [t] ->
  one_word t = true -> str_contains "_" t = true ->
  (forall e r, In e (b_eqs b) -> eq_type e = Some CDifferential -> analysed e r -> der_free r = true /\ readable t r /\ r <> SSym t) ->
  exists known, (known = 1%nat /\ time_occurs t (b_eqs b) \/ known = 0%nat /\ ~ time_occurs t (b_eqs b)) /\
    dof_test pn (pw_heap (fst s)) (snd s) =
      if Nat.eqb (List.length (b_varlist b) + unspecified_pars (pw_heap (fst s)) (b_pars b)) (List.length (b_eqs b) + known)
      then Ok true else Raise EException.
Proof.
  intros P R T W U H. destruct (resolved_block _ _ _ R) as (G & B & _ & _). unfold dof_test.
  assert (HP : forall x l, In (x, l) (b_pars b) -> hget (pw_heap (fst s)) l <> None)
    by (intros x l Hin; apply (bf_pars _ _ B) in Hin; apply (g_pars _ G x), Hin).
  rewrite (proj2 R). rewrite (unspecified_count _ _ HP), T. cbn [rbind].
  destruct (bf_groups _ _ B) as (_ & _ & Ld).
  assert (HD : forall e, In e (b_diff b) <-> In e (b_eqs b) /\ eq_type e = Some CDifferential) by (intros e; rewrite Ld, filter_In, has_type_spec; tauto).
  destruct (has_var_exact pn t (b_diff b) P W U) as (k & Ek & Hk).
  - intros e r He Ha. apply HD in He. destruct He as [He Te]. exact (H e r He Te Ha).
  - intros e He. apply HD in He. apply (symbolic_total (pw_heap (fst s))). now apply (bf_ok _ _ B).
  - rewrite Ek. cbn [rbind]. rewrite (bf_exprs _ _ B). exists (if k then 1%nat else 0%nat). split; [|reflexivity].
    assert (Hk' : k = true <-> time_occurs t (b_eqs b)).
    { rewrite Hk. unfold time_occurs. split.
      - intros (e & r & He & X). apply HD in He. exists e, r. tauto.
      - intros (e & r & He & Te & X). exists e, r. rewrite HD. tauto. }
    destruct k; [left; split; [reflexivity|now apply Hk']|right; split; [reflexivity|]]. intros X. apply Hk' in X. discriminate.
Qed.
