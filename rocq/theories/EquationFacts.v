(** Facts about equations and automatic names (C17, C18). *)
From Verif Require Import Base BaseFacts Num NumFacts UnitModel UnitFacts Sympy Node Build EquationModel
  SpecUnits UnitThms SpecExpr SpecQty SpecModel BuildFacts.
From Coq Require Import Reals.
Notation num := Verif.Num.num.

(** ** setResidual *)

Lemma node_sub_coherent a b :
  coherent (nd_unit a) (nd_unit b) = Ok true ->
  exists d, node_sub a (ONode b) = Ok d /\ nd_sym d = SSub (nd_sym a) (nd_sym b) /\
            nd_repr d = SSub (nd_repr a) (nd_repr b) /\ nd_ty d = ty_prec (nd_ty a) (nd_ty b).
Proof. intros H. simpl. unfold unit_sub. rewrite H. simpl. eexists. repeat split. Qed.

Lemma node_sub_incoherent a b :
  coherent (nd_unit a) (nd_unit b) = Ok false -> node_sub a (ONode b) = Raise EDimCoherence.
Proof. intros H. simpl. unfold unit_sub. now rewrite H. Qed.

Lemma den_sub a b en : den (SSub a b) en = arith BSub (den a en) (den b en).
Proof. simpl. unfold lift2, obind. destruct (den a en), (den b en); reflexivity. Qed.

(** The state after a successful elementary setResidual. *)
Lemma set_residual_elem e a b d :
  node_sub a (ONode b) = Ok d ->
  set_residual e (EATuple a (ONode b)) =
    (mkEqn (eq_name e) (Some d) (Some (a, b)) true (type_of d) None (eq_owner e), Ok tt).
Proof. intros H. simpl in *. now rewrite H. Qed.

Lemma elementary_decided h l r a b e :
  build h l = Ok a -> build h r = Ok b -> comparable (nd_unit a) (nd_unit b) ->
  (same_dimension (nd_unit a) (nd_unit b) ->
     exists arg e', build_eq h (UElem l r) = Ok arg /\ set_residual e arg = (e', Ok tt) /\
       equation_call e' 0 = Ok (Some a) /\ equation_call e' 1 = Ok (Some b) /\
       forall v en, env_for h v en ->
         exists n, eval_target e' None = Ok (Some n) /\
                   den (nd_sym n) en = arith BSub (meaning h v l) (meaning h v r)) /\
  (~ same_dimension (nd_unit a) (nd_unit b) ->
     exists arg, build_eq h (UElem l r) = Ok arg /\ snd (set_residual e arg) = Raise EDimCoherence).
Proof.
  intros Ha Hb (C1 & C2 & C3 & C4 & C5).
  destruct (coherent_decides _ _ C1 C2 C3 C4 C5) as [c [Ec Hc]].
  assert (Harg : build_eq h (UElem l r) = Ok (EATuple a (ONode b))).
  { simpl. rewrite Ha. simpl. now rewrite Hb. }
  split; intros Hd.
  - assert (c = true) as -> by now apply Hc.
    destruct (node_sub_coherent _ _ Ec) as [d [Hs [S1 [S2 S3]]]].
    exists (EATuple a (ONode b)). eexists. split; [exact Harg|].
    split; [exact (set_residual_elem e a b d Hs)|]. split; [reflexivity|]. split; [reflexivity|].
    intros v en Hen. exists d. split; [reflexivity|].
    rewrite S1, den_sub, (build_meaning h v en l a Hen Ha), (build_meaning h v en r b Hen Hb). reflexivity.
  - assert (c = false) as -> by (destruct c; [exfalso; apply Hd; now apply Hc|reflexivity]).
    exists (EATuple a (ONode b)). split; [exact Harg|]. simpl.
    pose proof (node_sub_incoherent _ _ Ec) as Hs. simpl in Hs. now rewrite Hs.
Qed.

Lemma elementary_number h l k a e :
  build h l = Ok a -> comparable (nd_unit a) (nd_unit a) ->
  exists arg e' nk, build_eq h (UElemN l k) = Ok arg /\ set_residual e arg = (e', Ok tt) /\
    equation_call e' 0 = Ok (Some a) /\ equation_call e' 1 = Ok (Some nk) /\
    (forall en, den (nd_sym nk) en = num_value k) /\ nd_unit nk = nd_unit a /\
    forall v en, env_for h v en ->
      exists n, eval_target e' None = Ok (Some n) /\
                den (nd_sym n) en = arith BSub (meaning h v l) (num_value k).
Proof.
  intros Ha (C1 & C2 & C3 & C4 & C5).
  destruct (coherent_decides _ _ C1 C2 C3 C4 C5) as [c [Ec Hc]].
  assert (c = true) as -> by (apply Hc, same_dimension_refl).
  destruct (node_sub_coherent a (number_node k (nd_unit a)) Ec) as [d [Hs [S1 [S2 S3]]]].
  exists (EATuple a (ONum k)). do 2 eexists.
  split; [simpl; now rewrite Ha|].
  split.
  { pose proof (set_residual_elem e a (number_node k (nd_unit a)) d Hs) as E.
    unfold set_residual in *. exact E. }
  split; [reflexivity|]. split; [reflexivity|]. split; [reflexivity|]. split; [reflexivity|].
  intros v en Hen. exists d. split; [reflexivity|].
  rewrite S1, den_sub, (build_meaning h v en l a Hen Ha). reflexivity.
Qed.

Lemma residual_kept h x n e :
  build h x = Ok n ->
  exists arg e', build_eq h (UResid x) = Ok arg /\ set_residual e arg = (e', Ok tt) /\
    eq_expr e' = Some n /\ eq_elementary e' = eq_elementary e /\ eq_elem e' = eq_elem e /\
    eq_type e' = type_of n.
Proof.
  intros H. exists (EANode n). eexists. split; [simpl; now rewrite H|]. split; [reflexivity|].
  repeat split.
Qed.

Lemma residual_other e : set_residual e EAOther = (e, Raise EUnexpectedValue).
Proof. reflexivity. Qed.

(** The class of an equation is the class of its expression. *)
Lemma set_residual_type e a e' n :
  set_residual e a = (e', Ok tt) -> eq_expr e' = Some n -> eq_type e' = type_of n.
Proof.
  unfold set_residual, finish_residual. destruct a as [m|l r|].
  - simpl. intros H. injection H as <-. simpl. congruence.
  - destruct r as [b|k|].
    + destruct (node_sub l (ONode b)) as [d|x]; simpl; intros H; [injection H as <-|discriminate].
      simpl. congruence.
    + destruct (node_sub l _) as [d|x]; simpl; intros H; [injection H as <-|discriminate].
      simpl. congruence.
    + simpl. destruct (eq_expr e) eqn:E; intros H; [injection H as <-|discriminate]. simpl. congruence.
  - discriminate.
Qed.

(** Conversion to the residual form changes nothing but the form. *)
Lemma converted nm arg e : set_residual (blank_eqn nm) arg = (e, Ok tt) ->
  exists e', to_residual_form e = (e', Ok tt) /\ eq_name e' = eq_name e /\ eq_expr e' = eq_expr e /\ eq_elem e' = eq_elem e /\ eq_type e' = eq_type e /\
    (eq_type e = Some CDifferential -> eq_elementary e' = false /\ get_symbolic e' None SRhs = get_symbolic e (Some false) SRhs) /\
    (eq_type e <> Some CDifferential -> e' = e).
Proof.
  unfold set_residual, finish_residual. destruct arg as [m|l r|].
  - intros H. injection H as <-. unfold to_residual_form. cbn [eq_expr with_expr with_type blank_eqn eq_type eq_elementary].
    destruct (type_of m) as [[]|] eqn:T; cbn; rewrite T; (eexists; split; [reflexivity|]); cbn; rewrite ?T; intuition (try congruence).
  - destruct r as [b|k|].
    + destruct (node_sub l (ONode b)) as [d|x] eqn:D; cbn; [|discriminate]. intros H. injection H as <-. unfold to_residual_form. cbn.
      destruct (type_of d) as [[]|] eqn:T; cbn; cbn in D; rewrite ?D; (eexists; split; [reflexivity|]); cbn; rewrite ?T; intuition (try congruence).
    + destruct (node_sub l _) as [d|x] eqn:D; cbn; [|discriminate]. intros H. injection H as <-. unfold to_residual_form. cbn.
      destruct (type_of d) as [[]|] eqn:T; cbn; cbn in D; rewrite ?D; (eexists; split; [reflexivity|]); cbn; rewrite ?T; intuition (try congruence).
    + cbn. discriminate.
  - discriminate.
Qed.

(** ** Automatic names *)

Fixpoint dec (v : nat) (s : string) : nat :=
  match s with
  | EmptyString => v
  | String c r => dec (10 * v + (nat_of_ascii c - 48)) r
  end.

Lemma dec_digit v d s : (d < 10)%nat -> dec v (String (digit d) s) = dec (10 * v + d) s.
Proof.
  intros H. change (dec v (String (digit d) s)) with (dec (10 * v + (nat_of_ascii (digit d) - 48)) s).
  f_equal. f_equal. clear v s. do 10 (destruct d as [|d]; [reflexivity|]). lia.
Qed.

Lemma str_nat_aux_dec fuel : forall n acc, (n < fuel)%nat -> dec 0 (str_nat_aux fuel n acc) = dec n acc.
Proof.
  induction fuel as [|f IH]; intros n acc H; [lia|].
  assert (Hm := Nat.mod_upper_bound n 10 ltac:(lia)).
  assert (Hd := Nat.div_mod n 10 ltac:(lia)).
  change (str_nat_aux (S f) n acc) with
    (match Nat.div n 10 with
     | O => String (digit (Nat.modulo n 10)) acc
     | m => str_nat_aux f m (String (digit (Nat.modulo n 10)) acc) end).
  destruct (Nat.div n 10) as [|m] eqn:E.
  - rewrite dec_digit by exact Hm. f_equal. lia.
  - rewrite IH by lia. rewrite dec_digit by exact Hm. f_equal. lia.
Qed.

Lemma str_nat_inj a b : str_nat a = str_nat b -> a = b.
Proof.
  intros H. apply (f_equal (dec 0)) in H. unfold str_nat in H.
  rewrite !str_nat_aux_dec in H by lia. exact H.
Qed.

Lemma with_eowner_name e o : eq_name (with_eowner e o) = eq_name e.
Proof. reflexivity. Qed.

Lemma set_residual_name e a : eq_name (fst (set_residual e a)) = eq_name e.
Proof.
  unfold set_residual, finish_residual.
  destruct a as [m|l r|]; [reflexivity| |reflexivity].
  destruct r as [b|k|].
  - destruct (node_sub l (ONode b)); reflexivity.
  - destruct (node_sub l _); reflexivity.
  - simpl. destruct (eq_expr e); reflexivity.
Qed.

Lemma gen_mono (u : uids) t x : (u x <= fst (gen_rnd_str u t) x)%nat.
Proof. simpl. destruct (Nat.eqb_spec x t); subst; lia. Qed.

Lemma init_mono (u : uids) t n a o x : (u x <= fst (equation_init u t n a o) x)%nat.
Proof.
  unfold equation_init.
  destruct (if String.eqb n "" then gen_rnd_str u t else (u, n)) as [u1 nm] eqn:P.
  assert (H : (u x <= u1 x)%nat).
  { destruct (String.eqb n ""); [pose proof (gen_mono u t x) as M; rewrite P in M; exact M|].
    injection P as -> _. lia. }
  destruct a as [a|]; [|exact H].
  assert (H2 : (u x <= (match residual_draws a with O => u1 | S _ => fst (gen_rnd_str u1 t) end) x)%nat).
  { destruct (residual_draws a); [exact H|]. etransitivity; [exact H|apply gen_mono]. }
  destruct (set_residual (blank_eqn nm) a) as [e [[]|ex]]; exact H2.
Qed.

Lemma init_unnamed u t a o e :
  snd (equation_init u t "" a o) = Ok e ->
  eq_name e = str_nat (S (u t)) /\ (S (u t) <= fst (equation_init u t "" a o) t)%nat.
Proof.
  unfold equation_init. rewrite String.eqb_refl.
  destruct (gen_rnd_str u t) as [u1 nm] eqn:G. assert (G' := G). unfold gen_rnd_str in G'. injection G' as E1 E2.
  assert (L : (S (u t) <= u1 t)%nat) by (rewrite <- E1; rewrite Nat.eqb_refl; lia).
  destruct a as [a|].
  - pose proof (set_residual_name (blank_eqn nm) a) as N.
    assert (L2 : (S (u t) <= (match residual_draws a with O => u1 | S _ => fst (gen_rnd_str u1 t) end) t)%nat).
    { destruct (residual_draws a); [exact L|]. etransitivity; [exact L|apply gen_mono]. }
    destruct (set_residual (blank_eqn nm) a) as [e' [[]|ex]]; simpl; intros H; [|discriminate].
    injection H as <-. simpl in *. rewrite N. split; [congruence|exact L2].
  - simpl. intros H. injection H as <-. simpl. split; [congruence|exact L].
Qed.

Lemma create_all_above (u : uids) cs : forall j c e,
  nth_error (create_all u cs) j = Some (c, Ok e) -> c_name c = "" ->
  exists k, eq_name e = str_nat k /\ (u (c_thread c) < k)%nat.
Proof.
  revert u. induction cs as [|c0 r IH]; intros u j c e Hj Hn; [destruct j; discriminate|].
  simpl in Hj. destruct (equation_init u (c_thread c0) (c_name c0) (c_arg c0) (c_owner c0)) as [u' e0] eqn:E.
  destruct j as [|j]; simpl in Hj.
  - injection Hj as <- ->. rewrite Hn in E.
    pose proof (init_unnamed u (c_thread c0) (c_arg c0) (c_owner c0) e) as H. rewrite E in H.
    destruct (H eq_refl) as [H1 H2]. exists (S (u (c_thread c0))). split; [exact H1|lia].
  - destruct (IH u' j c e Hj Hn) as [k [H1 H2]]. exists k. split; [exact H1|].
    pose proof (init_mono u (c_thread c0) (c_name c0) (c_arg c0) (c_owner c0) (c_thread c)) as M.
    rewrite E in M. simpl in M. lia.
Qed.

Lemma unnamed_distinct u cs : forall i j c c' e e',
  nth_error (create_all u cs) i = Some (c, Ok e) -> nth_error (create_all u cs) j = Some (c', Ok e') ->
  i <> j -> c_name c = "" -> c_name c' = "" -> c_thread c = c_thread c' -> eq_name e <> eq_name e'.
Proof.
  revert u. induction cs as [|c0 r IH]; intros u i j c c' e e' Hi Hj Hij Hn Hn' Ht Heq; [destruct i; discriminate|].
  simpl in Hi, Hj. destruct (equation_init u (c_thread c0) (c_name c0) (c_arg c0) (c_owner c0)) as [u' e0] eqn:E.
  assert (Main : forall c c' e e' j, nth_error (create_all u' r) j = Some (c', Ok e') ->
            c_name c = "" -> c_name c' = "" -> c_thread c = c_thread c' -> c = c0 -> e0 = Ok e ->
            eq_name e <> eq_name e').
  { clear - E. intros c c' e e' j Hj Hn Hn' Ht -> -> Heq. rewrite Hn in E.
    pose proof (init_unnamed u (c_thread c0) (c_arg c0) (c_owner c0) e) as H. rewrite E in H.
    destruct (H eq_refl) as [H1 H2]. simpl in H2.
    destruct (create_all_above u' r j c' e' Hj Hn') as [k [K1 K2]].
    rewrite H1, K1 in Heq. apply str_nat_inj in Heq. rewrite <- Ht in K2. lia. }
  destruct i as [|i], j as [|j]; simpl in Hi, Hj.
  - contradiction.
  - injection Hi as E1 E2. exact (Main c c' e e' j Hj Hn Hn' Ht (eq_sym E1) E2 Heq).
  - injection Hj as E1 E2. exact (Main c' c e' e i Hi Hn' Hn (eq_sym Ht) (eq_sym E1) E2 (eq_sym Heq)).
  - exact (IH u' i j c c' e e' Hi Hj ltac:(congruence) Hn Hn' Ht Heq).
Qed.
