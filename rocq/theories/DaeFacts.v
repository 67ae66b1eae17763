(** Facts about the residual function of differential-algebraic problems. *)
From Verif Require Import Base BaseFacts Num UnitModel Sympy Node Build EquationModel ModelModel ProblemModel SpecExpr SpecModel SpecProblem
  SolverModel DomainModel SpecSolver BuildFacts EquationFacts ModelFacts ProblemFacts SessionFacts UsualFacts DofFacts SolverFacts OdeFacts.
From Coq Require Import Reals Lra.
Notation num := Verif.Num.num.

Definition der_of (xtr : string * string * sx) : sx := SDer (fst (fst xtr)) (snd (fst xtr)).

Lemma no_der_print pn a r : plain_print pn r -> der_free a = true -> incl (fsyms a) (fsyms r) ->
  str_contains "Derivative" (srepr pn a) = false.
Proof.
  intros [P S] D I. destruct (str_contains "Derivative" (srepr pn a)) eqn:E; [|reflexivity].
  apply (srepr_has pn "Derivative" eq_refl) in E; [|exact P| |exact D].
  - destruct E as (y & Hy & E). rewrite S in E by (now apply I). discriminate.
  - intros f Hf. simpl in Hf. repeat (destruct Hf as [<-|Hf]; [reflexivity|]). destruct Hf.
Qed.
Lemma prefix_app w s : String.prefix w (w ++ s) = true.
Proof. induction w as [|c w IH]; cbn; [now destruct s|]. destruct (ascii_dec c c); [exact IH|congruence]. Qed.
Lemma der_print pn x t : str_contains "Derivative" (srepr pn (SDer x t)) = true.
Proof.
  cbn [srepr]. unfold call2 at 1. generalize ("(" ++ call1 "Symbol" ("'" ++ x ++ "'") ++ ", " ++
    call2 "Tuple" (call1 "Symbol" ("'" ++ t ++ "'")) (pn (PInt 1)) ++ ")")%string as z. intros z.
  change (String "D"%char ("erivative" ++ z))%string with ("Derivative" ++ z)%string. unfold str_contains.
  assert (P := prefix_app "Derivative" z). cbn [append] in *. now rewrite P.
Qed.
Lemma filter_none {A} (f : A -> bool) l : (forall x, In x l -> f x = false) -> filter f l = [].
Proof. induction l as [|x l IH]; intros H; simpl; [reflexivity|]. rewrite H by now left. apply IH. intros y Hy. apply H. now right. Qed.

Section Rate.
Variable pn : num -> string.
Hypothesis Hn : forall n, str_contains "Derivative" (pn n) = false.
Let has (a : sx) : bool := str_contains "Derivative" (srepr pn a).
Lemma minus_has a : has (SMul (SNum (PInt (-1))) a) = has a.
Proof. unfold has. cbn [srepr]. rewrite (call2_has "Derivative" eq_refl), Hn. cbn. now rewrite Bool.orb_false_r. Qed.
Lemma quiet_terms a : quiet pn a -> filter has (terms a) = [].
Proof.
  intros [D P]. apply filter_none. intros u Hu. apply (no_der_print pn _ a P).
  - assert (T := terms_der a D). rewrite forallb_forall in T. now apply T.
  - intros y Hy. rewrite <- terms_syms. apply in_flat_map. eauto.
Qed.
Lemma filter_minus l : filter has (map (SMul (SNum (PInt (-1)))) l) = map (SMul (SNum (PInt (-1)))) (filter has l).
Proof. induction l as [|a l IH]; [reflexivity|]. cbn [map filter]. rewrite minus_has. destruct (has a); cbn [map]; now rewrite IH. Qed.
(** A derivative with factors 1 and -1. *)
Definition signed (x t : string) (u : sx) : Prop :=
  flat_map coefficient (factors u) = [] /\ filter (fun a => negb (is_number a)) (factors u) = [SDer x t].
Lemma signed_arg x t u : signed x t u -> abs_arg u = SDer x t.
Proof. intros [A B]. unfold abs_arg. now rewrite A, B. Qed.
Lemma signed_minus x t u : signed x t u -> signed x t (SMul (SNum (PInt (-1))) u).
Proof. intros [A B]. split; cbn [factors app flat_map filter coefficient is_number negb]; assumption. Qed.
Lemma rate_term x t e : with_rate pn x t e -> exists u, filter has (terms e) = [u] /\ signed x t u.
Proof.
  assert (D : has (SDer x t) = true) by apply der_print.
  induction 1 as [| | |a b _ (u & E & S) Q|a b Q _ (u & E & S)|a b _ (u & E & S) Q|a b Q _ (u & E & S)]; cbn [terms].
  - exists (SDer x t). cbn [filter]. rewrite D. now split.
  - eexists. cbn [filter]. rewrite minus_has, D. split; [reflexivity|]. now split.
  - exists (SMul (SDer x t) (SNum (PInt (-1)))). split; [|now split]. cbn [filter].
    assert (M : has (SMul (SDer x t) (SNum (PInt (-1)))) = true); [|now rewrite M].
    unfold has. cbn [srepr]. rewrite (call2_has "Derivative" eq_refl). unfold has in D. cbn [srepr] in D. rewrite D. now destruct (str_contains "Derivative" "Mul").
  - exists u. rewrite filter_app, E, (quiet_terms b Q). now split.
  - exists u. rewrite filter_app, E, (quiet_terms a Q). now split.
  - exists u. rewrite filter_app, E, filter_minus, (quiet_terms b Q). now split.
  - exists (SMul (SNum (PInt (-1))) u). rewrite filter_app, filter_minus, E, (quiet_terms a Q). split; [reflexivity|now apply signed_minus].
Qed.
End Rate.
Lemma rate_sum pn x t e a b : with_rate pn x t e -> e = SAdd a b \/ e = SSub a b -> forall n, str_contains "Derivative" (pn n) = false.
Proof. intros [] [E|E]; try discriminate E; match goal with Q : quiet _ _ |- _ => exact (proj1 (proj2 Q)) end. Qed.

Lemma rate_not_raw pn x t e : with_rate pn x t e -> is_raw e = false.
Proof. induction 1; cbn [is_raw]; rewrite ?IHwith_rate; auto using Bool.andb_false_r. Qed.
Lemma diff_list_residual pn es dae : Forall2 (residual_ode pn) es dae -> diff_list pn es = Ok (map der_of dae).
Proof.
  induction 1 as [|e [[x t] r] es dae (n & En & W & (a & b & S) & _) F IH]; [reflexivity|].
  cbn [diff_list]. unfold get_symbolic. rewrite En. cbn [rbind].
  assert (Hn := rate_sum _ _ _ _ _ _ W S). destruct (rate_term pn Hn x t _ W) as (u & E & Su). apply signed_arg in Su.
  assert (T : is_raw (nd_sym n) = false /\ sx_args (nd_sym n) = terms (nd_sym n)) by (split; [exact (rate_not_raw _ _ _ _ W)|destruct S as [-> | ->]; reflexivity]).
  destruct T as [-> ->]. rewrite IH. cbn [rbind map]. rewrite E. cbn [map app]. now rewrite Su.
Qed.
(** The usual form. *)
Lemma usual_residual pn e n x t r : eq_expr e = Some n -> nd_sym n = SSub (SDer x t) r -> der_free r = true -> plain_print pn r -> residual_ode pn e (x, t, r).
Proof.
  intros En Es D P. exists n. split; [exact En|]. rewrite Es. split; [apply rate_sub_l; [constructor|now split]|].
  split; [eexists _, _; right; reflexivity|]. intros en H. cbn [den] in H. destruct (den r en) as [v|]; [|discriminate H].
  cbn in H. f_equal. assert (e_der en x t - v = 0)%R by congruence. lra.
Qed.

Lemma index_of_nth x : forall l i, NoDup l -> nth_error l i = Some x -> index_of x l = Some i.
Proof.
  induction l as [|y l IH]; intros i N E; [destruct i; discriminate|]. apply NoDup_cons_iff in N. destruct N as [N1 N2].
  destruct i as [|i]; simpl in E.
  - injection E as ->. simpl. now rewrite String.eqb_refl.
  - simpl. destruct (String.eqb_spec x y) as [->|_]; [exfalso; apply N1; now apply nth_error_In in E|]. now rewrite (IH i).
Qed.
Lemma der_index_none x t : forall dae, ~ In (x, t) (map fst dae) -> der_index x t (map der_of dae) = None.
Proof.
  induction dae as [|[[y u] r] dae IH]; intros H; [reflexivity|]. cbn [map der_of fst snd der_index] in *.
  rewrite IH by (intros K; apply H; now right). destruct (String.eqb_spec x y) as [->|]; [|reflexivity].
  destruct (String.eqb_spec t u) as [->|]; [|reflexivity]. exfalso. apply H. now left.
Qed.
Lemma der_index_nth x t : forall dae k r, NoDup (map fst dae) -> nth_error dae k = Some (x, t, r) -> der_index x t (map der_of dae) = Some k.
Proof.
  induction dae as [|[[y u] r0] dae IH]; intros k r N E; [destruct k; discriminate|].
  cbn [map fst] in N. apply NoDup_cons_iff in N. destruct N as [N1 N2]. destruct k as [|k]; simpl in E.
  - injection E as -> -> ->. cbn [map der_index der_of fst snd]. rewrite der_index_none by exact N1. now rewrite !String.eqb_refl.
  - cbn [map der_index]. now rewrite (IH k r N2 E).
Qed.

Lemma dae_exact pn b dae y yd en : Forall2 (residual_ode pn) (b_diff b) dae -> dae <> [] -> closed_dae b dae ->
  by_equation (b_varlist b) dae y yd en ->
  exists vs, dae_function pn b y yd = Ok vs /\ residual_values en (b_eqs b) vs.
Proof.
  intros F Ne (Nv & Nd & C) (Ly & Ld & Sy & Sd). unfold dae_function.
  assert (E : is_empty (b_diff b) = false) by (destruct F; [congruence|reflexivity]). rewrite E, (diff_list_residual _ _ _ F). cbn [rbind].
  unfold equation_list, residual_values. clear E F Ne.
  assert (R : forall n, incl (plain_syms (nd_sym n)) (b_varlist b) -> incl (ders (nd_sym n)) (map fst dae) ->
    residual_at (b_varlist b) (map der_of dae) y yd (nd_sym n) = Ok (den (nd_sym n) en)).
  { intros n Is Id. unfold residual_at.
    assert (Xs : forall x, In x (plain_syms (nd_sym n)) -> exists i, index_of x (b_varlist b) = Some i /\ nth_error (b_varlist b) i = Some x).
    { intros x Hx. destruct (In_nth_error _ _ (Is x Hx)) as [i Hi]. exists i. split; [now apply index_of_nth|exact Hi]. }
    assert (Xd : forall x t, In (x, t) (ders (nd_sym n)) -> exists k r, der_index x t (map der_of dae) = Some k /\ nth_error dae k = Some (x, t, r)).
    { intros x t Hx. apply Id in Hx. destruct (In_nth_error _ _ Hx) as [k Hk]. rewrite nth_error_map in Hk.
      destruct (nth_error dae k) as [[[x' t'] r]|] eqn:G; [|discriminate]. injection Hk as -> ->. exists k, r. split; [|exact G].
      now apply der_index_nth with (r := r). }
    assert (B1 : forallb (fun x => match index_of x (b_varlist b) with Some _ => true | None => false end) (plain_syms (nd_sym n)) = true).
    { apply forallb_forall. intros x Hx. now destruct (Xs x Hx) as (i & -> & _). }
    assert (B2 : forallb (fun xt => match der_index (fst xt) (snd xt) (map der_of dae) with Some _ => true | None => false end) (ders (nd_sym n)) = true).
    { apply forallb_forall. intros [x t] Hx. cbn [fst snd]. now destruct (Xd x t Hx) as (i & r & -> & _). }
    assert (B3 : forallb (fun x => match index_of x (b_varlist b) with Some i => Nat.ltb i (List.length y) | None => false end) (plain_syms (nd_sym n)) = true).
    { apply forallb_forall. intros x Hx. destruct (Xs x Hx) as (i & -> & Hi). apply Nat.ltb_lt. rewrite Ly. apply nth_error_Some. congruence. }
    assert (B4 : forallb (fun xt => match der_index (fst xt) (snd xt) (map der_of dae) with Some i => Nat.ltb i (List.length yd) | None => false end) (ders (nd_sym n)) = true).
    { apply forallb_forall. intros [x t] Hx. cbn [fst snd]. destruct (Xd x t Hx) as (i & r & -> & Hi). apply Nat.ltb_lt.
      assert (i < List.length dae)%nat by (apply nth_error_Some; congruence). lia. }
    rewrite B1, B2, B3, B4. cbn [andb]. f_equal. apply den_agree; cbn.
    - intros x Hx. destruct (Xs x Hx) as (i & -> & Hi). apply nth_error_nth. now apply Sy.
    - intros x t Hx. destruct (Xd x t Hx) as (k & r & -> & Hk). apply nth_error_nth. now apply (Sd k x t r). }
  revert C. generalize (b_eqs b) as es. induction es as [|e es IH]; intros C.
  - exists []. split; [reflexivity|constructor].
  - destruct IH as (vs & Ev & Fv); [intros e' He; apply C; now right|]. destruct (C e (or_introl eq_refl)) as (n & En & Is & Id).
    exists (den (nd_sym n) en :: vs). split; [|constructor; eauto].
    cbn [map_res]. unfold get_symbolic at 1. rewrite En. cbn [rbind].
    destruct (map_res (fun e0 => get_symbolic e0 (Some false) SRhs) es) as [l|]; [|discriminate]. cbn [rbind] in *.
    cbn [map_res]. rewrite (R n Is Id). cbn [rbind]. now rewrite Ev.
Qed.

(** Differentiated variables first, in the order of the equations. *)
Definition states_first (vars : list string) (dae : list (string * string * sx)) : Prop :=
  exists rest, vars = map (fun xtr => fst (fst xtr)) dae ++ rest.

Lemma dae_paired pn b dae y yd en : Forall2 (residual_ode pn) (b_diff b) dae -> dae <> [] -> closed_dae b dae ->
  states_first (b_varlist b) dae -> paired (b_varlist b) y yd en ->
  exists vs, dae_function pn b y yd = Ok vs /\ residual_values en (b_eqs b) vs.
Proof.
  intros F Ne C (rest & V) (Ly & Ld & S). apply dae_exact with (dae := dae); auto.
  split; [exact Ly|]. split; [rewrite Ld, V, app_length, map_length; lia|]. split; [intros i x H; now apply S|].
  intros k x t r H. apply (S k x). rewrite V, nth_error_app1 by (rewrite map_length; apply nth_error_Some; congruence).
  now rewrite nth_error_map, H.
Qed.

(** ** Initial vectors *)
Lemma dae_initial_lengths ps pn b init dae y0 yd0 : Forall2 (residual_ode pn) (b_diff b) dae -> NoDup (map fst dae) ->
  dae_initial ps pn b init = Ok (y0, yd0) ->
  in_order (b_varlist b) init y0 /\ List.length y0 = List.length (b_varlist b) /\ List.length yd0 = S (List.length dae) /\
  exists rates, in_order (map (fun xtr => fst (fst xtr) ++ "_d")%string dae) init rates /\ yd0 = rates ++ [PFloat (SpecFloat.S754_zero false)].
Proof.
  intros F N. unfold dae_initial. rewrite (diff_list_residual _ _ _ F). cbn [rbind].
  destruct (lookup_all init (b_varlist b)) as [y|] eqn:Ey; [|discriminate]. cbn [rbind].
  assert (D : distinct_ders [] (map der_of dae) = map der_of dae).
  { assert (G : forall seen l, NoDup (map fst (seen ++ l)) -> distinct_ders (map der_of seen) (map der_of l) = map der_of l).
    { intros seen l. revert seen. induction l as [|[[x t] r] l IH]; intros seen Ns; [reflexivity|]. cbn [map distinct_ders].
      assert (M : sx_mem (der_of (x, t, r)) (map der_of seen) = false).
      { rewrite map_app in Ns. cbn [map] in Ns. apply NoDup_remove_2 in Ns.
        assert (Hn : ~ In (x, t) (map fst seen)) by (intros H; apply Ns; apply in_or_app; now left). clear Ns.
        induction seen as [|[[y' u] q] seen IHs]; [reflexivity|]. cbn [map der_of fst snd sx_mem] in *.
        rewrite IHs by (intros H; apply Hn; now right). destruct (String.eqb_spec x y') as [->|]; [|reflexivity].
        destruct (String.eqb_spec t u) as [->|]; [|reflexivity]. exfalso. apply Hn. now left. }
      rewrite M. f_equal. change [der_of (x, t, r)] with (map der_of [(x, t, r)]). rewrite <- map_app. apply IH. now rewrite <- app_assoc. }
    exact (G [] dae N). }
  rewrite D.
  assert (M : map_res (first_member ps) (map der_of dae) = Ok (map (fun xtr => fst (fst xtr)) dae)).
  { clear. induction dae as [|[[x t] r] dae IH]; [reflexivity|]. cbn [map map_res]. rewrite IH. reflexivity. }
  rewrite M. cbn [rbind]. destruct (lookup_all init (map _ _)) as [yd|] eqn:Ed; [|discriminate]. cbn [rbind]. intros H. injection H as <- <-.
  apply lookup_all_inv in Ey, Ed. destruct Ey as [[Ly Oy] _], Ed as [[Ld Od] _]. rewrite map_map in Od, Ld.
  split; [split; auto|]. split; [exact Ly|]. split; [rewrite app_length, Ld, !map_length; simpl; lia|]. exists yd. split; [|reflexivity]. split; assumption.
Qed.
