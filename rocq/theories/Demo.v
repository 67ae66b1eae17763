(** Example data used beside the theorems (not part of the model). *)
From Verif Require Import Base Num NumFacts UnitModel UnitFacts Sympy Node Build SpecUnits SpecExpr SpecDims SpecQty UnitThms QtyFacts.
From Coq Require Import Reals Lra.
From Flocq Require Import Core BinarySingleNaN.
Notation num := Verif.Num.num.
Open Scope Z_scope.

Definition mk_var (n : string) (u : unit) (dom : bool) : qty :=
  mkQty KVariable n u (PInt 0) false "" false "" dom.
Definition mk_par (n : string) (u : unit) (v : num) (sp : bool) : qty :=
  mkQty KParameter n u v sp "" false "" false.

(** Locations 0: x [m], distributed; 1: t [s]; 2: k, specified, 2; 3: y [m];
    4: p, unspecified, dimensionless; 5: z, a specified distributed variable [m]. *)
Definition demo_heap : heap :=
  [ mk_var "x" u_m true; mk_var "t" u_s false; mk_par "k" u_dimless (PInt 2) true;
    mk_var "y" u_m false; mk_par "p" u_dimless (PInt 0) false;
    mkQty KVariable "z" u_m (PInt 7) true "" false "" true ].

Definition demo_dim (l : loc) : dim :=
  match l with
  | 1%nat => fun k => if String.eqb k "s" then 1 else 0
  | 0%nat | 3%nat | 5%nat => fun k => if String.eqb k "m" then 1 else 0
  | _ => fun _ => 0
  end.

Definition demo_whole (n : num) : Z := match n with PInt z => z | PFloat _ => 0 end.

Lemma demo_units : units_are WSmall base_keys demo_dim demo_heap.
Proof.
  intros l q H.
  do 6 (destruct l as [|l]; [injection H as <-;
    (apply urep_intro; [apply unit_init_wf| |];
     [intros k Hk; simpl in Hk;
      repeat (destruct Hk as [<-|Hk];
        [eexists; split; [reflexivity|first [apply nrep_zero_float | split; [unfold small; simpl; lia|reflexivity]]]|]);
      destruct Hk
     |intros k Hk; apply BaseFacts.dget_none_iff; intros HH; apply Hk; revert HH; vm_compute; tauto])|]).
  destruct l; discriminate H.
Qed.

Lemma small_1 z : -1 <= z <= 1 -> small z.
Proof. unfold small. intros H. lia. Qed.

(** (x**2 - 3*y*x) / (k*x) + Diff(x, t)*t *)
Definition demo_expr : uexpr loc :=
  UBin BAdd
    (UBin BDiv (UBin BSub (UNumR BPow (UQty 0%nat) (PInt 2))
                          (UBin BMul (UNumL BMul (PInt 3) (UQty 3%nat)) (UQty 0%nat)))
               (UBin BMul (UQty 2%nat) (UQty 0%nat)))
    (UBin BMul (UDiff 0%nat (Some 1%nat)) (UQty 1%nat)).

(** 2*x - y + 3 *)
Definition demo_linear : uexpr loc :=
  UNumR BAdd (UBin BSub (UNumL BMul (PInt 2) (UQty 0%nat)) (UQty 3%nat)) (PInt 3).

Lemma init_fin u : (forall k x, exponent u k = Some x -> exists z, x = PInt z) -> finite_exponents u.
Proof. intros H k x E. destruct (H k x E) as [z ->]. exists (IZR z). reflexivity. Qed.

Lemma int_exponents u :
  forallb (fun kv => is_pint (snd kv)) (u_dim u) = true -> finite_exponents u.
Proof.
  intros H. apply init_fin. intros k x E. apply BaseFacts.dget_some_in in E.
  rewrite forallb_forall in H. specialize (H _ E). destruct x; [eauto|discriminate].
Qed.

Lemma same_names_si u v : dkeys (u_dim u) = dkeys (u_dim v) -> same_names u v.
Proof. intros H k. unfold exponent. rewrite !BaseFacts.dget_none_iff, H. tauto. Qed.

Lemma m_s_comparable : comparable u_s u_m.
Proof.
  repeat split; try (apply au_init; repeat constructor; simpl; intuition discriminate);
    try (now apply int_exponents); unfold exponent; intros HH; apply BaseFacts.dget_none_iff in HH;
    apply BaseFacts.dget_none_iff; exact HH.
Qed.

Lemma m_s_different : ~ same_dimension u_s u_m.
Proof.
  intros H. specialize (H "s" (PInt 1) (PInt 0) 1%R 0%R eq_refl eq_refl eq_refl eq_refl). lra.
Qed.

