(** Proofs about the library of unit operations. *)
From Verif Require Import Base BaseFacts Num UnitModel Sympy Node Build QtyFacts EquationModel ModelModel PackageModel UnitOpModel
  SpecUnits SpecExpr SpecQty SpecModel SpecUnitOps BuildFacts EquationFacts ModelFacts.
From Coq Require Import Reals Lra.
Notation num := Verif.Num.num.

(** ** Units and values of written expressions over attributes *)

Fixpoint atoms (e : uexpr string) : list string :=
  match e with
  | UQty a => [a]
  | UBin _ a b => atoms a ++ atoms b
  | UNumR _ a _ | UNumL _ _ a => atoms a
  | _ => []
  end.

Fixpoint eunit (U : string -> option unit) (e : uexpr string) : res unit :=
  match e with
  | UQty a => match U a with Some u => Ok u | None => Raise EAttribute end
  | UBin BAdd a b => let* x := eunit U a in let* y := eunit U b in unit_add x y
  | UBin BSub a b => let* x := eunit U a in let* y := eunit U b in unit_sub x y
  | UBin BMul a b => let* x := eunit U a in let* y := eunit U b in Ok (unit_mul x y)
  | UBin BDiv a b => let* x := eunit U a in let* y := eunit U b in Ok (unit_div x y)
  | UNumL BAdd _ a => eunit U a
  | _ => Raise EType
  end.

Fixpoint evalue (v : string -> R) (e : uexpr string) : option R :=
  match e with
  | UQty a => Some (v a)
  | UBin o a b => arith o (evalue v a) (evalue v b)
  | UNumR o a k => arith o (evalue v a) (num_value k)
  | UNumL o k a => arith o (num_value k) (evalue v a)
  | _ => None
  end.

Section Library.
Variable U : string -> option unit.

(** Attribute [a] is a declared quantity with its name and unit. *)
Definition has (w : mworld) (a : string) : Prop :=
  exists l q u, dget a (m_attrs (w_mod w)) = Some (AQty l) /\ hget (w_heap w) l = Some q /\
    q_name q = full_name a (m_name (w_mod w)) /\ U a = Some u /\ q_units q = u /\
    In (q_name q) (declared (w_mod w)).

Lemma has_quantity w a : has w a -> exists q, quantity w a = Some q /\ q_name q = full_name a (m_name (w_mod w)).
Proof. intros (l & q & u & A & B & C & _). exists q. unfold quantity, attr_qty. rewrite A. auto. Qed.

(** A valuation reading everything from the environment. *)
Definition read (h : heap) (en : env) : valuation :=
  mkVal (fun l => match hget h l with Some q => e_sym en (q_name q) | None => 0%R end)
        (fun l i => match hget h l, hget h i with Some q, Some p => e_der en (q_name q) (q_name p) | _, _ => 0%R end).

Lemma read_for h en : env_for h (read h en) en.
Proof. split; simpl; intros; repeat match goal with H : hget _ _ = _ |- _ => rewrite H end; reflexivity. Qed.

Definition tells (w : mworld) (en : env) (v : string -> R) (a : string) : Prop :=
  forall q, quantity w a = Some q -> v a = e_sym en (q_name q) /\ (q_spec q = true -> num_value (q_value q) = Some (v a)).

Lemma expression_builds w E : forall u, (forall a, In a (atoms E) -> has w a) -> eunit U E = Ok u ->
  exists E' n, resolve (attr_qty (w_mod w)) E = Ok E' /\ build (w_heap w) E' = Ok n /\ nd_unit n = u /\
    (forall l, occurs l E' -> exists a, In a (atoms E) /\ attr_qty (w_mod w) a = Ok l) /\
    forall en v, (forall a, In a (atoms E) -> tells w en v a) -> meaning (w_heap w) (read (w_heap w) en) E' = evalue v E.
Proof.
  induction E as [a|o E1 IH1 E2 IH2|o E IH k|o k E IH|f E IH|f k|a t|mx l]; intros u Hh Hu; try discriminate.
  - simpl in Hu. destruct (Hh a (or_introl eq_refl)) as (l & q & u' & A & B & C & D & Eu & F). rewrite D in Hu. injection Hu as <-.
    assert (Q : attr_qty (w_mod w) a = Ok l) by (unfold attr_qty; now rewrite A).
    exists (UQty l), (qty_call l q). simpl. rewrite Q. split; [reflexivity|]. unfold build_qty. rewrite B.
    split; [reflexivity|]. split; [unfold qty_call; destruct (q_spec q); exact Eu|].
    split; [intros l' <-; exists a; simpl; auto|].
    intros en v T. unfold qty_meaning. rewrite B. destruct (T a (or_introl eq_refl) q) as [T1 T2].
    { unfold quantity. now rewrite Q. }
    destruct (q_spec q); [now apply T2|]. simpl. now rewrite B, T1.
  - assert (Hu' : exists u1 u2, eunit U E1 = Ok u1 /\ eunit U E2 = Ok u2).
    { simpl in Hu. destruct o; try discriminate; destruct (eunit U E1) as [u1|]; try discriminate;
        destruct (eunit U E2) as [u2|]; try discriminate; eauto. }
    destruct Hu' as [u1 [u2 [Hu1 Hu2]]].
    destruct (IH1 u1) as (E1' & n1 & R1 & B1 & N1 & O1 & M1); [intros; apply Hh; simpl; apply in_or_app; now left|exact Hu1|].
    destruct (IH2 u2) as (E2' & n2 & R2 & B2 & N2 & O2 & M2); [intros; apply Hh; simpl; apply in_or_app; now right|exact Hu2|].
    assert (Hn : exists n, node_op o n1 (ONode n2) = Ok n /\ nd_unit n = u).
    { simpl in Hu. rewrite Hu1, Hu2 in Hu. simpl in Hu. subst u1 u2.
      destruct o; try discriminate; simpl; try rewrite Hu; simpl; eexists; (split; [reflexivity|simpl; congruence]). }
    destruct Hn as [n [Hn Un]]. exists (UBin o E1' E2'), n. simpl. rewrite R1, R2, B1. simpl. rewrite B2. simpl.
    split; [reflexivity|]. split; [exact Hn|]. split; [exact Un|]. split.
    + intros l [Hl|Hl]; [destruct (O1 l Hl) as [a [Ha Hq]]|destruct (O2 l Hl) as [a [Ha Hq]]];
        exists a; (split; [apply in_or_app; auto|exact Hq]).
    + intros en v T. rewrite (M1 en v), (M2 en v); [reflexivity| |]; intros a Ha; apply T; simpl; apply in_or_app; auto.
  - simpl in Hu. destruct o; try discriminate.
    destruct (IH u Hh Hu) as (E' & n & R1 & B1 & N1 & O1 & M1).
    exists (UNumL BAdd k E'). simpl. rewrite R1. simpl. rewrite B1. simpl. eexists. split; [reflexivity|].
    split; [reflexivity|]. split; [exact N1|]. split; [exact O1|]. intros en v T. now rewrite (M1 en v).
Qed.

(** ** Steps *)

(** The invariant: known attributes, what they are worth, and the equations made
    so far. *)
Record state (w : mworld) (n : string) (D : list string) : Prop := mkState {
  st_name : m_name (w_mod w) = n;
  st_has : forall a, In a D -> has w a;
  st_only : forall a l, dget a (m_attrs (w_mod w)) = Some (AQty l) -> In a D
}.

Definition holds (e : eqn) (en : env) : Prop := exists n, eq_expr e = Some n /\ den (nd_sym n) en = Some 0%R.

Definition eqs_are (w : mworld) (en : env) (v : string -> R) (L : list (string * uexpr string)) : Prop :=
  (forall k e, dget k (m_eqs (w_mod w)) = Some e ->
     exists n E, In (n, E) L /\ k = full_name n (m_name (w_mod w)) /\ (holds e en <-> evalue v E = Some 0%R)) /\
  (forall n E, In (n, E) L -> exists e, dget (full_name n (m_name (w_mod w))) (m_eqs (w_mod w)) = Some e /\
     (holds e en <-> evalue v E = Some 0%R)).

Lemma eqs_solution w en v L : eqs_are w en v L ->
  (solution (w_mod w) en <-> forall n E, In (n, E) L -> evalue v E = Some 0%R).
Proof.
  intros [A B]. split.
  - intros S n E H. destruct (B n E H) as [e [G I]]. apply I. exact (S _ _ G).
  - intros H k e G. destruct (A k e G) as (n & E & I & _ & J). apply J. now apply (H n E).
Qed.

Definition functional (L : list (string * uexpr string)) : Prop :=
  forall n E E', In (n, E) L -> In (n, E') L -> E = E'.

Lemma has_other w w' a : m_name (w_mod w') = m_name (w_mod w) ->
  dget a (m_attrs (w_mod w')) = dget a (m_attrs (w_mod w)) ->
  (forall l q, hget (w_heap w) l = Some q -> exists q', hget (w_heap w') l = Some q' /\ q_name q' = q_name q /\ q_units q' = q_units q) ->
  incl (declared (w_mod w)) (declared (w_mod w')) -> has w a -> has w' a.
Proof.
  intros N A H D (l & q & u & G1 & G2 & G3 & G4 & G5 & G6). destruct (H l q G2) as (q' & I1 & I2 & I3).
  exists l, q', u. rewrite A, N, I2, I3. repeat split; auto.
Qed.

Lemma hget_snoc (h : heap) q l p : hget h l = Some p -> hget (h ++ [q]) l = Some p.
Proof. unfold hget. intros H. rewrite nth_error_app1; [exact H|]. apply nth_error_Some. congruence. Qed.
Lemma hget_end (h : heap) q : hget (h ++ [q]) (List.length h) = Some q.
Proof. unfold hget. rewrite nth_error_app2, Nat.sub_diag; [reflexivity|lia]. Qed.

(** Declaring a quantity. *)
Definition declares (c : cmd) (a : string) (u : unit) : Prop :=
  match c with
  | CVar a' n u' ex ty _ => a' = a /\ n = a /\ u' = u /\ (ex = true -> ty = "input" \/ ty = "output")
  | CPar a' n u' _ => a' = a /\ n = a /\ u' = u
  | _ => False
  end.

Lemma declare_step c a u w n D : declares c a u -> U a = Some u -> state w n D ->
  exists w', run_cmd w c = (w', Ok tt) /\ state w' n (a :: D) /\ m_eqs (w_mod w') = m_eqs (w_mod w) /\
    (forall b, b <> a -> In b D -> quantity w' b = quantity w b) /\
    (exists q, quantity w' a = Some q /\ q_spec q = false /\ q_name q = full_name a n).
Proof.
  intros Hc Hu S. destruct S as [Sn Sh So].
  set (nm := full_name a (m_name (w_mod w))).
  assert (G : exists q m', run_cmd w c = (mkW (w_heap w ++ [q]) (w_uids w) (set_attr m' a (AQty (List.length (w_heap w)))), Ok tt) /\
      q_name q = nm /\ q_units q = u /\ q_spec q = false /\ m_name m' = m_name (w_mod w) /\ m_attrs m' = m_attrs (w_mod w) /\
      m_eqs m' = m_eqs (w_mod w) /\ incl (declared (w_mod w)) (declared m') /\ In nm (declared m')).
  { destruct c as [a' n' u' ex ty x|a' n' u' x| | | |]; simpl in Hc; try contradiction.
    - destruct Hc as (-> & -> & -> & Hty). simpl. unfold create_variable. fold nm.
      assert (K : In nm (declared (with_vars (w_mod w) (dset nm (List.length (w_heap w)) (m_vars (w_mod w)))))).
      { unfold declared. apply in_or_app. left. simpl. apply in_dkeys_dset. now left. }
      assert (K' := declared_vars (w_mod w) nm (List.length (w_heap w))).
      destruct ex.
      + destruct (Hty eq_refl) as [-> | ->]; simpl; do 2 eexists; repeat split; auto; simpl; auto.
      + simpl. do 2 eexists; repeat split; auto.
    - destruct Hc as (-> & -> & ->). simpl. fold nm.
      assert (K : In nm (declared (with_pars (w_mod w) (dset nm (List.length (w_heap w)) (m_pars (w_mod w)))))).
      { unfold declared. apply in_or_app. right. apply in_or_app. left. simpl. apply in_dkeys_dset. now left. }
      assert (K' := declared_pars (w_mod w) nm (List.length (w_heap w))).
      do 2 eexists; repeat split; auto. }
  destruct G as (q & m' & Hr & Qn & Qu & Qs & Mn & Ma & Me & Di & Dn).
  eexists. split; [exact Hr|].
  assert (Hd : forall b, dget b (m_attrs (set_attr m' a (AQty (List.length (w_heap w))))) =
                 if String.eqb b a then Some (AQty (List.length (w_heap w))) else dget b (m_attrs (w_mod w))).
  { intros b. simpl. rewrite dget_dset, Ma. reflexivity. }
  split; [split|].
  - simpl. congruence.
  - intros b Hb. destruct (String.eqb_spec b a) as [->|Hne].
    + exists (List.length (w_heap w)), q, u. split; [cbn [w_mod]; rewrite Hd, String.eqb_refl; reflexivity|]. split; [apply hget_end|].
      split; [cbn [w_mod set_attr m_name with_attrs]; now rewrite Mn|]. split; [exact Hu|]. split; [exact Qu|]. rewrite Qn. exact Dn.
    + destruct Hb as [<-|Hb]; [congruence|]. apply has_other with (w := w); [cbn; exact Mn| | |exact Di|now apply Sh].
      * cbn [w_mod]. rewrite Hd. apply String.eqb_neq in Hne. now rewrite Hne.
      * intros l p Hp. exists p. split; [now apply hget_snoc|auto].
  - intros b l Hb. cbn [w_mod] in Hb. rewrite Hd in Hb. destruct (String.eqb_spec b a) as [->|_]; [now left|right; now apply (So b l)].
  - split; [exact Me|]. split.
    + intros b Hne Hb. destruct (Sh b Hb) as (l & p & _ & A & B & _). unfold quantity, attr_qty. cbn [w_mod w_heap]. rewrite Hd.
      apply String.eqb_neq in Hne. rewrite Hne, A. rewrite B. now apply hget_snoc.
    + exists q. unfold quantity, attr_qty. cbn [w_mod w_heap]. rewrite Hd, String.eqb_refl. split; [apply hget_end|].
      split; [exact Qs|]. now rewrite Qn, <- Sn.
Qed.

(** Writing an equation. *)
Lemma equation_step name E u w n D : name <> "" -> U name = None -> (forall a, In a D -> U a <> None) ->
  incl (atoms E) D -> eunit U E = Ok u -> state w n D ->
  exists w', run_cmd w (eqc name E) = (w', Ok tt) /\ state w' n D /\ (forall a, In a D -> quantity w' a = quantity w a) /\
    w_heap w' = w_heap w /\
    exists e, m_eqs (w_mod w') = dset (full_name name n) e (m_eqs (w_mod w)) /\
      forall en v, (forall a, In a (atoms E) -> tells w en v a) -> (holds e en <-> evalue v E = Some 0%R).
Proof.
  intros Hne HU HD Hi Hu S. pose proof S as S0. destruct S as [Sn Sh So].
  destruct (expression_builds w E u) as (E' & nd & R1 & B1 & N1 & O1 & M1); [auto|exact Hu|].
  unfold eqc. cbn [run_cmd]. simpl resolve_eq. rewrite R1. cbn [rbind].
  assert (W : well_formed_eq (w_heap w) (UResid E')) by (exists nd; exact B1).
  destruct (proj1 (create_decided w name (UResid E') W)) as (w' & e & C & Ch & Cm & Cn & Ce).
  { intros l o Ho Hl. simpl in Ho. destruct (O1 l Ho) as [a [Ha Hq]]. destruct (Sh a (Hi a Ha)) as (l' & q & u' & A & B & _ & _ & _ & F).
    unfold attr_qty in Hq. rewrite A in Hq. injection Hq as <-. replace o with q by congruence. exact F. }
  unfold user_create in C. simpl build_eq in *. rewrite B1 in *. cbn [rbind] in *. rewrite C.
  eexists. split; [reflexivity|].
  assert (Hd : forall a, In a D -> dget a (m_attrs (set_attr (w_mod w') name (AEqn e))) = dget a (m_attrs (w_mod w))).
  { intros a Ha. simpl. rewrite dget_dset, Cm. destruct (String.eqb_spec a name) as [->|_]; [|reflexivity].
    exfalso. now apply (HD name Ha). }
  split; [split|].
  - cbn. rewrite Cm. exact Sn.
  - intros a Ha. apply has_other with (w := w); cbn [w_mod w_heap]; [now rewrite Cm|now apply Hd| | |now apply Sh].
    + rewrite Ch. intros l q Hl. exists q. auto.
    + intros x Hx. rewrite Cm. exact Hx.
  - intros a l Ha. cbn in Ha. rewrite dget_dset, Cm in Ha. destruct (String.eqb_spec a name) as [->|_]; [discriminate|].
    cbn in Ha. now apply (So a l).
  - split.
    + intros a Ha. unfold quantity, attr_qty. cbn [w_mod w_heap]. now rewrite (Hd a Ha), Ch.
    + split; [exact Ch|]. exists e. split; [cbn; rewrite Cm; cbn; rewrite Cn by exact Hne; now rewrite Sn|].
      intros en v T. destruct Ce as [n' [En Dn]]. specialize (Dn (read (w_heap w) en) en (read_for _ _)). simpl in Dn.
      rewrite (M1 en v T) in Dn. split.
      * intros [n'' [En' D0]]. rewrite En in En'. injection En' as <-. now rewrite <- Dn.
      * intros H. exists n'. split; [exact En|]. now rewrite Dn.
Qed.

Lemma eqs_are_step w w' en v L name E e : functional ((name, E) :: L) -> m_name (w_mod w') = m_name (w_mod w) ->
  m_eqs (w_mod w') = dset (full_name name (m_name (w_mod w))) e (m_eqs (w_mod w)) ->
  (holds e en <-> evalue v E = Some 0%R) -> eqs_are w en v L -> eqs_are w' en v ((name, E) :: L).
Proof.
  intros F N Me He [A B]. split.
  - intros k x Hx. rewrite Me, dget_dset in Hx. rewrite N. destruct (String.eqb_spec k (full_name name (m_name (w_mod w)))) as [->|_].
    + injection Hx as <-. exists name, E. simpl. auto.
    + destruct (A k x Hx) as (n' & E' & I & J & K). exists n', E'. simpl. auto.
  - intros n' E' Hin. rewrite Me, N, dget_dset. destruct (String.eqb_spec (full_name n' (m_name (w_mod w))) (full_name name (m_name (w_mod w)))) as [Hf|Hne].
    + apply full_inj_same in Hf. subst n'. exists e. split; [reflexivity|].
      rewrite (F name E' E Hin (or_introl eq_refl)). exact He.
    + destruct Hin as [[= <- <-]|Hin]; [congruence|]. now apply B.
Qed.

(** Setting a number. *)
Lemma set_step a x w n D : In a D -> state w n D ->
  exists w', run_cmd w (CSet a (SANum x) None) = (w', Ok tt) /\ state w' n D /\ w_mod w' = w_mod w /\
    (forall b, b <> a -> In b D -> quantity w' b = quantity w b) /\
    (exists q, quantity w' a = Some q /\ q_spec q = true /\ q_value q = x /\ q_name q = full_name a n).
Proof.
  intros Ha S. destruct S as [Sn Sh So]. destruct (Sh a Ha) as (l & q & u & A & B & C & Du & Eu & F).
  assert (Sv : set_value q (SVNum x) None = Ok (set_qvalue q x)) by (destruct x; reflexivity).
  cbn [run_cmd]. unfold attr_qty. rewrite A. unfold heap_set_value. rewrite B, Sv. eexists. split; [reflexivity|].
  assert (Hl : forall l', hget (hset (w_heap w) l (set_qvalue q x)) l' = if Nat.eqb l' l then Some (set_qvalue q x) else hget (w_heap w) l').
  { intros l'. destruct (Nat.eqb_spec l' l) as [->|Hne].
    - apply hget_hset_eq. unfold hget in B. apply nth_error_Some. congruence.
    - now apply hget_hset_neq. }
  assert (HS : forall b, In b D -> has (mkW (hset (w_heap w) l (set_qvalue q x)) (w_uids w) (w_mod w)) b).
  { intros b Hb. apply has_other with (w := w); cbn [w_mod w_heap]; [reflexivity|reflexivity| |apply incl_refl|now apply Sh].
    intros l' p Hp. rewrite Hl. destruct (Nat.eqb_spec l' l) as [->|_]; [|exists p; auto].
    exists (set_qvalue q x). replace p with q by congruence. auto. }
  split; [split; [exact Sn|exact HS|exact So]|]. split; [reflexivity|]. split.
  - intros b Hne Hb. destruct (Sh b Hb) as (l' & p & _ & A' & B' & C' & _). unfold quantity, attr_qty. cbn [w_mod w_heap].
    rewrite A', Hl. destruct (Nat.eqb_spec l' l) as [->|_]; [|reflexivity].
    exfalso. apply Hne. replace p with q in C' by congruence. rewrite C in C'. now apply full_inj_same in C'.
  - exists (set_qvalue q x). unfold quantity, attr_qty. cbn [w_mod w_heap]. rewrite A, Hl, Nat.eqb_refl.
    split; [reflexivity|]. split; [reflexivity|]. split; [reflexivity|]. simpl. now rewrite C, Sn.
Qed.

(** Any setting by the user. *)
Lemma setting_step c w n D : is_setting c -> state w n D ->
  state (fst (run_cmd w c)) n D /\ w_mod (fst (run_cmd w c)) = w_mod w /\
  forall b, target c <> b -> In b D -> quantity (fst (run_cmd w c)) b = quantity w b.
Proof.
  intros Hc S. destruct c as [| | |a sv ou| |]; try contradiction. cbn [run_cmd]. destruct w as [wh wu wm]. cbn [w_heap w_mod w_uids].
  set (w := mkW wh wu wm) in *. change wm with (w_mod w). change wh with (w_heap w). change wu with (w_uids w).
  assert (Same : state w n D /\ w_mod w = w_mod w /\ forall b, target (CSet a sv ou) <> b -> In b D -> quantity w b = quantity w b) by auto.
  destruct (attr_qty (w_mod w) a) as [l|] eqn:AQ; [|exact Same].
  assert (A : dget a (m_attrs (w_mod w)) = Some (AQty l)).
  { unfold attr_qty in AQ. destruct (dget a (m_attrs (w_mod w))) as [[]|]; congruence. }
  destruct (match sv with SANum n0 => Ok (SVNum n0) | SAAttr b => _ end) as [x|]; [|exact Same].
  unfold heap_set_value. destruct (hget (w_heap w) l) as [q|] eqn:B; [|exact Same].
  destruct (set_value q x ou) as [q'|] eqn:Sv; [|exact Same]. cbn [fst w_mod].
  assert (Qn : q_name q' = q_name q /\ q_units q' = q_units q).
  { destruct x as [p|[z|f]|]; simpl in Sv.
    - destruct (isinstance_of p q); [|discriminate]. destruct ou; [discriminate|]. unfold rbind in Sv.
      destruct (coherent _ _) as [[]|]; try discriminate. injection Sv as <-. auto.
    - destruct ou; [|injection Sv as <-; auto]. unfold rbind in Sv. destruct (coherent _ _) as [[]|]; try discriminate.
      injection Sv as <-. auto.
    - injection Sv as <-. auto.
    - discriminate. }
  destruct S as [Sn Sh So].
  assert (Hl : forall l', hget (hset (w_heap w) l q') l' = if Nat.eqb l' l then Some q' else hget (w_heap w) l').
  { intros l'. destruct (Nat.eqb_spec l' l) as [->|Hne].
    - apply hget_hset_eq. unfold hget in B. apply nth_error_Some. congruence.
    - now apply hget_hset_neq. }
  split; [split; [exact Sn| |exact So]|split; [reflexivity|]].
  - intros b Hb. apply has_other with (w := w); cbn [w_mod w_heap]; [reflexivity|reflexivity| |apply incl_refl|now apply Sh].
    intros l' p Hp. rewrite Hl. destruct (Nat.eqb_spec l' l) as [->|_]; [|exists p; auto].
    exists q'. replace p with q by congruence. destruct Qn. auto.
  - intros b Hne Hb. simpl in Hne. unfold quantity, attr_qty. cbn [w_mod w_heap].
    destruct (Sh b Hb) as (l' & p & _ & A' & B' & C' & _). rewrite A', Hl.
    destruct (Nat.eqb_spec l' l) as [->|_]; [|reflexivity]. exfalso.
    apply Hne. destruct (Sh a (So a l A)) as (l0 & p0 & _ & A0 & B0 & C0 & _).
    replace l0 with l in B0 by congruence. replace p with q in C' by congruence. replace p0 with q in C0 by congruence.
    rewrite C0 in C'. now apply full_inj_same in C'.
Qed.

Lemma settle_state l : forall w n D, Forall is_setting l -> state w n D ->
  state (settle w l) n D /\ w_mod (settle w l) = w_mod w /\ forall b, (forall c, In c l -> target c <> b) -> In b D -> quantity (settle w l) b = quantity w b.
Proof.
  induction l as [|c l IH]; intros w n D Hl S; [simpl; auto|]. inversion Hl as [|? ? Hc Hl']; subst.
  destruct (setting_step c w n D Hc S) as [S1 [M1 Q1]]. destruct (IH _ n D Hl' S1) as [S2 [M2 Q2]].
  unfold settle in *. simpl. split; [exact S2|]. split; [now rewrite M2|]. intros b Hb Hd. rewrite Q2; [|intros c' Hc'; apply Hb; now right|exact Hd].
  apply Q1; [apply Hb; now left|exact Hd].
Qed.

(** ** Runs of commands *)
Record extends (n : string) (w w' : mworld) (D D' : list string) (L' : list (string * uexpr string)) : Prop := mkExtends {
  ex_state : state w' n D';
  ex_incl : incl D D';
  ex_known : forall a, In a D -> quantity w' a = quantity w a;
  ex_eqs : forall en v L, (forall a, In a D' -> tells w' en v a) -> functional (L' ++ L) ->
    eqs_are w en v L -> eqs_are w' en v (L' ++ L)
}.

Definition runs (n : string) (cs : list cmd) (D D' : list string) (L' : list (string * uexpr string)) : Prop :=
  forall w, state w n D -> exists w', run_cmds w cs = (w', Ok tt) /\ extends n w w' D D' L'.

Lemma run_cmds_app cs : forall cs' w w1, run_cmds w cs = (w1, Ok tt) -> run_cmds w (cs ++ cs') = run_cmds w1 cs'.
Proof.
  induction cs as [|c cs IH]; intros cs' w w1 H; simpl in *.
  - now injection H as ->.
  - destruct (run_cmd w c) as [w' [[]|]]; [|discriminate]. now apply IH.
Qed.

Lemma functional_tail L' L : functional (L' ++ L) -> functional L.
Proof. intros F n E E' H H'. apply (F n); apply in_or_app; now right. Qed.

Lemma extends_trans n w w1 w2 D D1 D2 L1 L2 : extends n w w1 D D1 L1 -> extends n w1 w2 D1 D2 L2 -> extends n w w2 D D2 (L2 ++ L1).
Proof.
  intros [S1 I1 K1 E1] [S2 I2 K2 E2]. split.
  - exact S2.
  - now apply incl_tran with D1.
  - intros a Ha. rewrite (K2 a (I1 a Ha)). now apply K1.
  - intros en v L T F H. rewrite <- app_assoc in *. apply E2; [exact T|exact F|]. apply E1; [|now apply functional_tail with L2|exact H].
    intros a Ha q Hq. apply (T a (I2 a Ha)). now rewrite (K2 a Ha).
Qed.

Lemma runs_app n cs cs' D D1 D2 L1 L2 : runs n cs D D1 L1 -> runs n cs' D1 D2 L2 -> runs n (cs ++ cs') D D2 (L2 ++ L1).
Proof.
  intros H1 H2 w S. destruct (H1 w S) as [w1 [R1 X1]]. destruct (H2 w1 (ex_state _ _ _ _ _ _ X1)) as [w2 [R2 X2]].
  exists w2. split; [now rewrite (run_cmds_app _ _ _ _ R1)|]. now apply extends_trans with w1 D1.
Qed.

Lemma runs_cons n c cs D D1 D2 L1 L2 : runs n [c] D D1 L1 -> runs n cs D1 D2 L2 -> runs n (c :: cs) D D2 (L2 ++ L1).
Proof. intros H1 H2. exact (runs_app n [c] cs D D1 D2 L1 L2 H1 H2). Qed.

Lemma runs_nil n D : runs n [] D D [].
Proof. intros w S. exists w. split; [reflexivity|]. split; auto. apply incl_refl. Qed.

Lemma eqs_are_same w w' en v L : m_name (w_mod w') = m_name (w_mod w) -> m_eqs (w_mod w') = m_eqs (w_mod w) ->
  eqs_are w en v L -> eqs_are w' en v L.
Proof. intros N E H. unfold eqs_are. rewrite N, E. exact H. Qed.

Lemma runs_declare n c a u D : declares c a u -> U a = Some u -> ~ In a D -> runs n [c] D (a :: D) [].
Proof.
  intros Hc Hu Hn w S. destruct (declare_step c a u w n D Hc Hu S) as [w' [R [S' [E [K _]]]]].
  exists w'. split; [simpl; now rewrite R|]. split; [exact S'|intros x; now right| |].
  - intros b Hb. apply K; [|exact Hb]. intros ->. contradiction.
  - intros en v L _ _ H. apply eqs_are_same with w; [now rewrite (st_name _ _ _ S), (st_name _ _ _ S')|exact E|exact H].
Qed.

Definition is_worth (w : mworld) (a : string) (x : num) : Prop :=
  exists q, quantity w a = Some q /\ q_spec q = true /\ q_value q = x.

Lemma runs_known n c a u x D w : declares c a u -> U a = Some u -> ~ In a D -> state w n D ->
  exists w', run_cmds w [c; CSet a (SANum x) None] = (w', Ok tt) /\ extends n w w' D (a :: D) [] /\ is_worth w' a x.
Proof.
  intros Hc Hu Hn S. destruct (declare_step c a u w n D Hc Hu S) as [w1 [R1 [S1 [E1 [K1 _]]]]].
  destruct (set_step a x w1 n (a :: D) (or_introl eq_refl) S1) as [w2 [R2 [S2 [E2 [K2 [q [Q1 [Q2 [Q3 _]]]]]]]]].
  exists w2. split; [cbn [run_cmds]; now rewrite R1, R2|]. split; [|exists q; auto]. split; [exact S2|intros y; now right| |].
  - intros b Hb. assert (b <> a) by (intros ->; contradiction). rewrite K2; [|assumption|now right]. now apply K1.
  - intros en v L _ _ H. apply eqs_are_same with w; [now rewrite (st_name _ _ _ S), (st_name _ _ _ S2)|now rewrite E2|exact H].
Qed.

Lemma runs_equation n name E u D : name <> "" -> U name = None -> (forall a, In a D -> U a <> None) ->
  incl (atoms E) D -> eunit U E = Ok u -> runs n [eqc name E] D D [(name, E)].
Proof.
  intros H1 H2 H3 H4 H5 w S. destruct (equation_step name E u w n D H1 H2 H3 H4 H5 S) as [w' [R [S' [K [_ [e [E' M]]]]]]].
  exists w'. split; [cbn [run_cmds]; now rewrite R|]. split; [exact S'|apply incl_refl|exact K|].
  intros en v L T F H. apply eqs_are_step with (w := w) (e := e); [exact F| | | |exact H].
  - now rewrite (st_name _ _ _ S), (st_name _ _ _ S').
  - now rewrite (st_name _ _ _ S).
  - apply M. intros a Ha q Hq. apply (T a (H4 a Ha)). now rewrite (K a (H4 a Ha)).
Qed.

(** Declarations only: quantities may be declared again. *)
Definition declared_by (n : string) (cs : list cmd) (D D' : list string) : Prop :=
  forall w, state w n D -> exists w', run_cmds w cs = (w', Ok tt) /\ state w' n D' /\ m_eqs (w_mod w') = m_eqs (w_mod w).

Lemma declared_nil n D : declared_by n [] D D.
Proof. intros w S. exists w. auto. Qed.
Lemma declared_cons' n c a u cs D D' : declares c a u -> U a = Some u -> declared_by n cs (a :: D) D' -> declared_by n (c :: cs) D D'.
Proof.
  intros Hc Hu H w S. destruct (declare_step c a u w n D Hc Hu S) as [w1 [R1 [S1 [E1 _]]]].
  destruct (H w1 S1) as [w2 [R2 [S2 E2]]]. exists w2. simpl. rewrite R1. split; [exact R2|]. split; [exact S2|congruence].
Qed.
Lemma declared_app n cs cs' D D1 D2 : declared_by n cs D D1 -> declared_by n cs' D1 D2 -> declared_by n (cs ++ cs') D D2.
Proof.
  intros H1 H2 w S. destruct (H1 w S) as [w1 [R1 [S1 E1]]]. destruct (H2 w1 S1) as [w2 [R2 [S2 E2]]].
  exists w2. rewrite (run_cmds_app _ _ _ _ R1). split; [exact R2|]. split; [exact S2|congruence].
Qed.

(** Nothing is specified as long as nothing is set. *)
Definition all_unset (w : mworld) : Prop := forall a q, quantity w a = Some q -> q_spec q = false.
Definition sets_nothing (c : cmd) : Prop := match c with CVar _ _ _ _ _ _ | CPar _ _ _ _ | CEq _ _ _ _ => True | _ => False end.

Lemma hget_last (h : heap) q l p : hget (h ++ [q]) l = Some p -> hget h l = Some p \/ p = q.
Proof.
  unfold hget. intros H. destruct (Nat.lt_ge_cases l (List.length h)) as [Hl|Hl].
  - rewrite nth_error_app1 in H by exact Hl. now left.
  - rewrite nth_error_app2 in H by exact Hl. destruct (l - List.length h)%nat as [|k]; simpl in H; [injection H as <-; now right|].
    destruct k; discriminate.
Qed.

Lemma unset_step c w : sets_nothing c -> all_unset w -> all_unset (fst (run_cmd w c)).
Proof.
  intros Hc H. destruct c as [a n u ex ty x|a n u x| | | |a n q chk]; simpl in Hc; try contradiction; cbn [run_cmd].
  - unfold create_variable. set (q := mkQty _ _ _ _ _ _ _ _ _).
    assert (G : forall m', m_attrs m' = m_attrs (w_mod w) ->
      all_unset (mkW (w_heap w ++ [q]) (w_uids w) m') /\ all_unset (mkW (w_heap w ++ [q]) (w_uids w) (set_attr m' a (AQty (List.length (w_heap w)))))).
    { intros m' Hm. split; intros b p; unfold quantity, attr_qty; cbn [w_mod w_heap set_attr m_attrs with_attrs]; [|rewrite dget_dset; destruct (String.eqb b a)].
      - rewrite Hm. destruct (dget b (m_attrs (w_mod w))) as [[l|]|] eqn:B; try discriminate. intros G.
        destruct (hget_last _ _ _ _ G) as [G'| ->]; [|reflexivity]. apply (H b). unfold quantity, attr_qty. now rewrite B.
      - rewrite hget_end. intros [= <-]. reflexivity.
      - rewrite Hm. destruct (dget b (m_attrs (w_mod w))) as [[l|]|] eqn:B; try discriminate. intros G.
        destruct (hget_last _ _ _ _ G) as [G'| ->]; [|reflexivity]. apply (H b). unfold quantity, attr_qty. now rewrite B. }
    destruct ex; [destruct (String.eqb ty "input"); [|destruct (String.eqb ty "output")]|]; apply G; reflexivity.
  - unfold create_parameter. set (q := mkQty _ _ _ _ _ _ _ _ _). cbn [assign_qty fst].
    intros b p; unfold quantity, attr_qty; cbn [w_mod w_heap set_attr m_attrs with_attrs with_pars]; rewrite dget_dset; destruct (String.eqb b a).
    + rewrite hget_end. intros [= <-]. reflexivity.
    + destruct (dget b (m_attrs (w_mod w))) as [[l|]|] eqn:B; try discriminate. intros G.
      destruct (hget_last _ _ _ _ G) as [G'| ->]; [|reflexivity]. apply (H b). unfold quantity, attr_qty. now rewrite B.
  - destruct (let* q' := resolve_eq (attr_qty (w_mod w)) q in build_eq (w_heap w) q') as [arg|]; [|exact H].
    destruct (create_outcome w n arg chk) as [u' ->].
    destruct (set_residual _ arg) as [e [[]|]]; [|exact H]. destruct (eq_expr e); [|exact H].
    assert (G : forall e', all_unset (mkW (w_heap w) u' (set_attr (with_eqs (w_mod w) (dset (stored_name w n) e' (m_eqs (w_mod w)))) a (AEqn e')))).
    { intros e' b p. unfold quantity, attr_qty. cbn [w_mod w_heap set_attr m_attrs with_attrs with_eqs]. rewrite dget_dset.
      destruct (String.eqb b a); [discriminate|]. exact (H b p). }
    destruct chk; [destruct (forallb _ _)|]; [apply G|exact H|apply G].
Qed.

Lemma unset_run cs : forall w w' , Forall sets_nothing cs -> all_unset w -> run_cmds w cs = (w', Ok tt) -> all_unset w'.
Proof.
  induction cs as [|c cs IH]; intros w w' Hc H R; simpl in R.
  - now injection R as <-.
  - inversion Hc as [|? ? H1 H2]; subst. destruct (run_cmd w c) as [w1 [[]|]] eqn:R1; [|discriminate].
    apply (IH w1 w' H2); [|exact R]. replace w1 with (fst (run_cmd w c)) by now rewrite R1. now apply unset_step.
Qed.
End Library.
