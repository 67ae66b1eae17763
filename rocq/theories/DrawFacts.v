(** Proofs about the names that equations draw. *)
From Verif Require Import Base BaseFacts Num UnitModel Sympy Node Build EquationModel SpecExpr SpecModel SpecDraws EquationFacts.
Notation num := Verif.Num.num.

Lemma names_drawn u c x : fst (equation_init u (c_thread c) (c_name c) (c_arg c) (c_owner c)) x =
  (u x + (if Nat.eqb x (c_thread c) then uses_up c else 0))%nat.
Proof.
  destruct c as [t name a o]. unfold uses_up, equation_init. cbn [c_thread c_name c_arg c_owner]. destruct (String.eqb name "").
  - cbn [gen_rnd_str]. destruct a as [a|].
    + destruct (set_residual _ a) as [e [[]|ex]]; destruct a as [n|l [n|k|]|]; cbn [residual_draws fst gen_rnd_str];
        destruct (Nat.eqb_spec x t) as [->|N]; rewrite ?Nat.eqb_refl; lia.
    + cbn [fst]. destruct (Nat.eqb_spec x t) as [->|N]; lia.
  - destruct a as [a|].
    + destruct (set_residual _ a) as [e [[]|ex]]; destruct a as [n|l [n|k|]|]; cbn [residual_draws fst gen_rnd_str];
        destruct (Nat.eqb_spec x t) as [->|N]; lia.
    + cbn [fst]. destruct (Nat.eqb_spec x t) as [->|N]; lia.
Qed.

Lemma numbered cs : forall u j c e, nth_error (create_all u cs) j = Some (c, Ok e) -> c_name c = "" ->
  eq_name e = str_nat (S (u (c_thread c) + used_up (c_thread c) (firstn j cs))).
Proof.
  induction cs as [|c0 cs IH]; intros u j c e H N; [destruct j; discriminate|]. cbn [create_all] in H.
  destruct (equation_init u (c_thread c0) (c_name c0) (c_arg c0) (c_owner c0)) as [u' e0] eqn:E.
  destruct j as [|j]; cbn [nth_error] in H.
  - injection H as <- ->. cbn [firstn used_up]. rewrite Nat.add_0_r. rewrite N in E.
    destruct (init_unnamed u (c_thread c0) (c_arg c0) (c_owner c0) e) as [Q _]; [now rewrite E|exact Q].
  - rewrite (IH _ _ _ _ H N). cbn [firstn used_up]. assert (D := names_drawn u c0 (c_thread c)). rewrite E in D. cbn [fst] in D.
    rewrite D. do 2 f_equal. lia.
Qed.

Lemma same_number u cs i j c c' e e' : nth_error (create_all u cs) i = Some (c, Ok e) -> nth_error (create_all u cs) j = Some (c', Ok e') ->
  c_name c = "" -> c_name c' = "" ->
  (eq_name e = eq_name e' <->
   u (c_thread c) + used_up (c_thread c) (firstn i cs) = u (c_thread c') + used_up (c_thread c') (firstn j cs))%nat.
Proof.
  intros H H' N N'. rewrite (numbered _ _ _ _ _ H N), (numbered _ _ _ _ _ H' N'). split.
  - intros E. apply str_nat_inj in E. lia.
  - intros E. now rewrite E.
Qed.
