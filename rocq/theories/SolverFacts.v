(** Facts about solvers. *)
From Verif Require Import Base BaseFacts Num UnitModel Sympy Node Build EquationModel ModelModel ProblemModel SpecExpr SpecModel SpecProblem
  SolverModel DomainModel SpecSolver BuildFacts ModelFacts ProblemFacts SessionFacts UsualFacts DofFacts.
From Coq Require Import Reals Lra.
Notation num := Verif.Num.num.

(** ** Lists and dictionaries *)
Lemma combine_keys {V} (ks : list string) (x : list V) : List.length x = List.length ks -> dkeys (List.combine ks x) = ks.
Proof. revert x. induction ks as [|k ks IH]; intros [|v x] H; simpl in *; try discriminate; [reflexivity|]. f_equal. apply IH. lia. Qed.
Lemma combine_get {V} (ks : list string) : forall (x : list V) i k, NoDup ks -> List.length x = List.length ks ->
  nth_error ks i = Some k -> dget k (List.combine ks x) = nth_error x i.
Proof.
  induction ks as [|k0 ks IH]; intros [|v x] i k N H E; simpl in *; try discriminate; [destruct i; discriminate|].
  inversion N as [|? ? N1 N2]; subst. destruct i as [|i]; simpl in E.
  - injection E as ->. now rewrite String.eqb_refl.
  - destruct (String.eqb_spec k k0) as [->|_]; [|simpl; apply IH; auto; lia].
    exfalso. apply N1. now apply nth_error_In in E.
Qed.
Lemma by_name_combine {V} (vars : list string) (x : list V) : NoDup vars -> List.length x = List.length vars ->
  by_name vars x = List.combine vars x.
Proof. intros N H. apply dof_nodup_id. now rewrite combine_keys. Qed.
Lemma by_name_labelled {V} (vars : list string) (x : list V) : NoDup vars -> List.length x = List.length vars -> labelled vars x (by_name vars x).
Proof.
  intros N H. rewrite by_name_combine by assumption. split; [now apply combine_keys|].
  intros i v E. now apply combine_get.
Qed.
Lemma lookup_all_ok {A} (d : dict A) ks : (forall k, In k ks -> dget k d <> None) ->
  exists l, lookup_all d ks = Ok l /\ in_order ks d l.
Proof.
  induction ks as [|k ks IH]; intros H; simpl.
  - exists []. split; [reflexivity|]. split; [reflexivity|]. intros [|i] v E; discriminate.
  - destruct (dget k d) as [v|] eqn:G; [|now destruct (H k (or_introl eq_refl))].
    destruct IH as (l & -> & L & E); [intros k' Hk; apply H; now right|]. exists (v :: l). split; [reflexivity|].
    split; [simpl; lia|]. intros [|i] w F; simpl in *; [congruence|]. now apply E.
Qed.
Lemma lookup_all_inv {A} (d : dict A) ks l : lookup_all d ks = Ok l -> in_order ks d l /\ forall k, In k ks -> dget k d <> None.
Proof.
  revert l. induction ks as [|k ks IH]; simpl; intros l H.
  - injection H as <-. split; [split; [reflexivity|]; intros [|i] v E; discriminate|]. intros k [].
  - destruct (dget k d) as [v|] eqn:G; [|discriminate]. destruct (lookup_all d ks) as [s|]; [|discriminate].
    injection H as <-. destruct (IH s eq_refl) as [[L E] F]. split.
    + split; [simpl; lia|]. intros [|i] w Hn; simpl in *; [congruence|]. now apply E.
    + intros k' [<-|Hk]; [congruence|now apply F].
Qed.
Lemma lookup_all_missing {A} (d : dict A) ks : (exists k, In k ks /\ dget k d = None) -> lookup_all d ks = Raise EKey.
Proof.
  intros (k & H & G). induction ks as [|k0 ks IH]; [destruct H|]. simpl.
  destruct (dget k0 d) as [v|] eqn:G0; [|reflexivity]. destruct H as [->|H]; [congruence|]. now rewrite (IH H).
Qed.

Lemma in_order_combine {A} (ks : list string) (d : dict A) l : in_order ks d l -> forall k v, In (k, v) (List.combine ks l) -> dget k d = Some v.
Proof.
  intros [L E] k v H. destruct (In_nth_error _ _ H) as [i Hi].
  assert (nth_error ks i = Some k /\ nth_error l i = Some v).
  { clear E. revert l i L Hi H. induction ks as [|k0 ks IH]; intros [|v0 l] i L Hi H; simpl in *; try (destruct i; discriminate).
    destruct i as [|i]; simpl in *; [injection Hi as <- <-; auto|]. apply IH; [lia|exact Hi|]. now apply nth_error_In in Hi. }
  rewrite <- (E i k) by tauto. tauto.
Qed.

(** ** Algebraic solvers *)
Section Alg.
Context {V : Type}.
Variable one : V.
Variable eng : engines V.

Lemma dense_result acts s b guess out : resolved acts s b -> la_solve one eng (Some "scipy") guess b = Ok out ->
  exists x, dense_solve eng (b_exprs b) (b_varlist b) = Ok x /\
    (List.length x = List.length (b_varlist b) -> labelled (b_varlist b) x out).
Proof.
  intros R. unfold la_solve. cbn. destruct (dense_solve eng (b_exprs b) (b_varlist b)) as [x|]; [|discriminate].
  cbn. intros H. injection H as <-. exists x. split; [reflexivity|]. intros L. apply by_name_labelled; [|exact L].
  apply (bf_nodup _ _ (proj1 (proj2 (resolved_block _ _ _ R)))).
Qed.

Definition started (ps : option string) (b : block) (g g' : list V) : Prop :=
  match ps with
  | None => g' = g
  | Some s => match polish eng s (b_varlist b) (b_exprs b) g with Some q => g' = q | None => g' = g end
  end.

Lemma root_result acts s b ps guess out : resolved acts s b -> symbolicsys one eng ps guess b = Ok out ->
  exists g g' x, (guess = [] /\ g = repeat one (List.length (b_varlist b)) \/ guess <> [] /\ in_order (b_varlist b) guess g) /\
    started ps b g g' /\ root_find eng (b_varlist b) (b_exprs b) g' = (true, x) /\
    (List.length x = List.length (b_varlist b) -> labelled (b_varlist b) x out).
Proof.
  intros R. unfold symbolicsys, first_guess.
  assert (N : NoDup (b_varlist b)) by apply (bf_nodup _ _ (proj1 (proj2 (resolved_block _ _ _ R)))).
  set (g0 := if is_empty guess then _ else _). destruct g0 as [g|] eqn:G; [|discriminate]. cbn [rbind].
  set (g' := match ps with None => g | Some _ => _ end).
  destruct (root_find eng (b_varlist b) (b_exprs b) g') as [[|] x] eqn:F; [|discriminate]. intros H. injection H as <-.
  exists g, g', x. split; [|split; [|split; [exact F|]]].
  - subst g0. destruct guess as [|kv guess]; cbn [is_empty] in G.
    + left. split; [reflexivity|]. now injection G as <-.
    + right. split; [discriminate|]. now apply lookup_all_inv in G.
  - unfold started. subst g'. destruct ps as [p|]; [|reflexivity]. now destruct (polish eng p _ _ g).
  - intros L. now apply by_name_labelled.
Qed.

Lemma guess_missing ps guess b : guess <> [] -> (exists v, In v (b_varlist b) /\ dget v guess = None) ->
  symbolicsys one eng ps guess b = Raise EKey.
Proof.
  intros N H. unfold symbolicsys, first_guess. destruct guess; [congruence|]. cbn [is_empty].
  now rewrite (lookup_all_missing _ _ H).
Qed.
End Alg.

Lemma results_same {V} (out : dict V) : NoDup (dkeys out) ->
  NoDup (dkeys (results_dict out)) /\ forall k, dget k (results_dict out) = dget k out.
Proof.
  intros N. unfold results_dict. assert (N' := sort_items_nodup _ N). rewrite dof_nodup_id by exact N'.
  split; [exact N'|]. intros k. now apply dget_sort_items.
Qed.
Lemma labelled_vals {V} names (x : list V) out : NoDup names -> List.length x = List.length names -> labelled names x out -> results_list out = x.
Proof.
  unfold labelled, results_list. revert x out. induction names as [|k names IH]; intros [|v x] [|[k' v'] out] N L [K E]; simpl in *; try discriminate; [reflexivity|].
  injection K as -> K. apply NoDup_cons_iff in N. destruct N as [N1 N2].
  assert (E0 := E 0%nat k eq_refl). simpl in E0. rewrite String.eqb_refl in E0. injection E0 as ->. f_equal.
  apply IH; [exact N2|lia|]. split; [exact K|]. intros i w Hw. assert (Ei := E (S i) w Hw). simpl in Ei.
  destruct (String.eqb_spec w k) as [->|_]; [|exact Ei]. exfalso. apply N1. now apply nth_error_In in Hw.
Qed.

(** The expressions handed over. *)
Lemma map_res_in {A B} (f : A -> res B) l ys : map_res f l = Ok ys -> Forall2 (fun x y => f x = Ok y) l ys.
Proof.
  revert ys. induction l as [|x l IH]; simpl; intros ys H; [injection H as <-; constructor|].
  destruct (f x) eqn:E; [|discriminate]. destruct (map_res f l); [|discriminate]. injection H as <-. constructor; auto.
Qed.
Lemma system_exact acts s b en : resolved acts s b ->
  (solved en b <-> forall e, In e (b_eqs b) ->
     if eq_elementary e then exists a c, eq_elem e = Some (a, c) /\ den (nd_sym c) en = Some 0%R else holds en e).
Proof.
  intros R. assert (L := map_res_in _ _ _ (bf_list _ _ (proj1 (proj2 (resolved_block _ _ _ R))))).
  unfold solved. induction L as [|e x es xs E L IH].
  - split; intros _ ? [].
  - assert (X : den x en = Some 0%R <-> if eq_elementary e then exists a c, eq_elem e = Some (a, c) /\ den (nd_sym c) en = Some 0%R else holds en e).
    { unfold get_symbolic in E. destruct (eq_elementary e).
      - destruct (eq_elem e) as [[a c]|]; [|discriminate]. injection E as <-. split.
        + intros H. exists a, c. auto.
        + intros (a' & c' & H & D). now injection H as <- <-.
      - unfold holds. destruct (eq_expr e) as [n|]; [|discriminate]. injection E as <-. split.
        + intros H. exists n. auto.
        + intros (n' & H & D). now injection H as <-. }
    split.
    + intros H e' [<-|He]; [apply X, H; now left|]. apply IH; [|exact He]. intros y Hy. apply H. now right.
    + intros H y [<-|Hy]; [apply X, H; now left|]. revert y Hy. apply IH. intros e' He. apply H. now right.
Qed.
Lemma system_residual acts s b en : resolved acts s b -> (forall e, In e (b_eqs b) -> eq_elementary e = false) ->
  (solved en b <-> forall e, In e (b_eqs b) -> holds en e).
Proof.
  intros R H. rewrite (system_exact _ _ _ _ R). split; intros K e He; assert (E := K e He); rewrite (H e He) in *; assumption.
Qed.
