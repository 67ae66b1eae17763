(** Facts about the symbols of sessions that connect by expressions and write
    equations outside of the declarations (C57, C27, C94). *)
From Verif Require Import Base BaseFacts Num NumFacts UnitModel UnitFacts Sympy Node Build EquationModel ModelModel ProblemModel
  SpecUnits UnitThms SpecExpr SpecQty QtyFacts SpecModel BuildFacts EquationFacts ModelFacts SpecInc IncFacts SpecCall CallFacts
  SpecProblem ProblemFacts SessionFacts UsualFacts DofFacts ConnFacts SolverModel SimModel SpecSolver SolverFacts ReportModel SpecReport ReportFacts SpecSymbols SymbolFacts CountFacts
  SpecSettled.
From Coq Require Import Reals Permutation.
Notation num := Verif.Num.num.

Lemma known_usable h use : known h use ->
  forall l, use l -> usable h (fun x => exists i o, use i /\ hget h i = Some o /\ q_kind o = KVariable /\ q_name o = x) l.
Proof.
  intros [K1 K2] l U. destruct (K1 l U) as (o & G & C). exists o. split; [exact G|].
  destruct (qkind_eqb (q_kind o) KVariable) eqn:Ek.
  - assert (K : q_kind o = KVariable) by (destruct (q_kind o); try discriminate Ek; reflexivity). left. split; [exact K|].
    exists l, o. auto.
  - assert (K : q_kind o <> KVariable) by (intros E; rewrite E in Ek; discriminate Ek). right. destruct C as [C|C]; [contradiction|].
    split; [exact C|]. intros (i & o' & Ui & Gi & Ki & Ni). apply K. exact (K2 i l o' o Ui U Gi G Ni Ki).
Qed.

Lemma known_imp h (U V : loc -> Prop) : (forall l, V l -> U l) -> known h U -> known h V.
Proof. intros I [K1 K2]. split; [intros l H; apply K1; auto|]. intros l l' o o' H H'. apply K2; auto. Qed.

(** A new equation, by createEquation. *)
Lemma equation_kept fx w n q arg check w' r : known (w_heap w) (fun l => eq_occurs l q) -> build_eq (w_heap w) q = Ok arg ->
  create_equation w n (Some arg) check = (w', r) -> kept fx (w_heap w) (w_mod w) (w_heap w') (w_mod w').
Proof.
  intros K Hb H. destruct (create_outcome w n arg check) as [u' E]. rewrite E in H. clear E.
  destruct (set_residual _ arg) as [e0 [[]|x2]] eqn:Er; [|injection H as <- <-; apply kept_refl].
  destruct (eq_expr e0) as [nn|] eqn:En; [|injection H as <- <-; apply kept_refl]. cbv zeta in H.
  assert (U := known_usable _ _ K).
  set (e2 := mkEqn (stored_name w n) (Some nn) (eq_elem e0) (eq_elementary e0) (eq_type e0) (Some (nd_smap nn)) (m_name (w_mod w))) in *.
  destruct (new_covered _ _ _ _ _ nn e2 _ Hb Er En U) as [C O]; [now rewrite En|reflexivity|reflexivity|].
  assert (Kp : forall m', m_eqs m' = dset (stored_name w n) e2 (m_eqs (w_mod w)) -> kept fx (w_heap w) (w_mod w) (w_heap w) m').
  { intros m' Em. constructor; [apply grows_refl|auto|]. intros k e Hin. rewrite Em in Hin.
    apply in_dset in Hin. destruct Hin as [[_ ->]|Hin]; [right; auto|now left]. }
  destruct check; [destruct (forallb _ _)|]; injection H as <- <-; [now apply Kp|apply kept_refl|now apply Kp].
Qed.

(** A new connection. *)
Lemma given_kept fx w outs ins q a w' r : known (w_heap w) (fun l => eq_occurs l q) -> build_eq (w_heap w) q = Ok a ->
  model_connection w outs ins a = (w', r) -> kept fx (w_heap w) (w_mod w) (w_heap w') (w_mod w').
Proof.
  intros K Hb H. unfold model_connection in H.
  destruct (forallb (is_variable (w_heap w)) ins && forallb (is_variable (w_heap w)) outs); [|injection H as <- _; apply kept_refl].
  destruct (rbind (qty_names (w_heap w) outs) _) as [name|x] eqn:En; [|injection H as <- _; apply kept_refl].
  assert (Ne : name <> "") by (binv; apply append_ne).
  destruct (connection_init (w_uids w) name a) as [u [e|x]] eqn:Ec; injection H as <- _; [|apply kept_refl].
  assert (U := known_usable _ _ K). unfold connection_init in Ec.
  destruct (init_outcome (w_uids w) main_thread name a "") as [u1 E]. rewrite E in Ec. clear E.
  apply String.eqb_neq in Ne. rewrite Ne in Ec.
  destruct (set_residual (blank_eqn name) a) as [e1 [[]|x]] eqn:Er; [|discriminate].
  destruct (residual_again a _ _ (with_eowner e1 "") (built_not_other _ _ _ Hb) Er) as (e2 & E2 & X & T & N & _ & El & Ef).
  rewrite E2 in Ec. assert (D := Er). apply (eq_data _ _ _ _ _ Hb) in D. destruct D as (n & Enn & _).
  unfold sweep_objects in Ec. rewrite X, Enn in Ec. injection Ec as _ <-.
  match goal with |- context [dset name ?z _] => destruct (new_covered _ _ _ _ _ n z _ Hb Er Enn U) as [C O] end;
    [exact X|exact (El eq_refl)|reflexivity|].
  constructor; [apply grows_refl|auto|]. intros k e Hin. cbn [w_mod m_eqs with_eqs] in Hin. apply in_dset in Hin.
  destruct Hin as [[_ ->]|Hin]; [right; auto|now left].
Qed.

Lemma settled_plain fx s a : settled fx s a -> plain a = true.
Proof. destruct a as [n d|i c|i|i j f|i|m1 m2 o n e|m1 m2 o n|ns|c|]; try reflexivity; [destruct c; try reflexivity|]; intros []. Qed.

Lemma kept_world fx pu w : holds fx w -> holds fx (mkPW (pw_heap w) (pw_uids w) pu (pw_models w)).
Proof. intros [A B C D]. constructor; [exact A|exact B|exact C|exact D]. Qed.

Lemma settled_holds fx s a : good s -> settled fx s a -> holds fx (fst s) -> holds fx (fst (fst (do_act s a))).
Proof.
  intros G P O. destruct a as [n dd|k c|k|k j f|k|m1 m2 outs ins e|m1 m2 out inp|names|c|]; try (apply do_act_holds; [exact G|exact P|exact O]);
    try (apply do_act_holds; [exact G|reflexivity|exact O]); [|destruct P| |].
  - (* a statement *)
    destruct s as [w p]. cbn [do_act]. destruct (on_model w k _) as [w1 r1] eqn:E1. cbn [fst] in *.
    apply (on_model_holds _ _ _ _ _ _ O) with (2 := E1). intros m d w2 r2 Gm F.
    assert (Hm : model_of (w, p) k = Some m) by (unfold model_of; cbn [fst]; now rewrite Gm).
    destruct c as [a n u ex ty v|a n u v|a n u v|a v u|a|a n q check]; cbn [run_cmd w_mod w_heap settled fst] in F, P.
    + destruct P.
    + injection F as <- _. now apply kept_new.
    + injection F as <- _. now apply kept_new.
    + destruct (attr_qty m a) as [l|x] eqn:Ea; [|injection F as <- _; apply kept_refl].
      destruct (match v with SANum n => _ | SAAttr b => _ end) as [sv|x]; [|injection F as <- _; apply kept_refl].
      unfold heap_set_value in F. destruct (hget (pw_heap w) l) as [q|] eqn:Gl; [|injection F as <- _; apply kept_refl].
      destruct (set_value q sv u) as [q'|x] eqn:Es; injection F as <- _; [|apply kept_refl].
      destruct (set_value_effect _ _ _ _ Es) as (_ & Sq & _ & N & K & _). apply (kept_set _ _ _ _ q); auto.
      intros Ef Ek _. destruct P as [P|P]; [congruence|]. destruct (P m l q Hm Ea Gl Ek).
    + destruct (attr_qty m a) as [l|x] eqn:Ea; [|injection F as <- _; apply kept_refl].
      destruct (hget (pw_heap w) l) as [q|] eqn:Gl; [|injection F as <- _; apply kept_refl].
      destruct (qkind_eqb (q_kind q) KVariable); injection F as <- _; [|apply kept_refl].
      apply (kept_set _ _ _ _ q); auto.
    + destruct (resolve_eq (attr_qty m) q) as [q'|x] eqn:Eq; cbn [rbind] in F; [|injection F as <- _; apply kept_refl].
      destruct (build_eq (pw_heap w) q') as [arg|x] eqn:Eb; [|injection F as <- _; apply kept_refl].
      destruct (create_equation _ n (Some arg) check) as [w3 r3] eqn:Ec.
      assert (Kq := equation_kept fx (mkW (pw_heap w) (pw_uids w) m) _ _ _ _ _ _ (P m q' Hm Eq) Eb Ec). cbn [w_heap w_mod] in Kq.
      destruct r3 as [e|x]; injection F as <- _; [|exact Kq].
      destruct Kq as [K1 K2 K3]. constructor; [exact K1|exact K2|exact K3].
  - (* a connection of variables *)
    destruct e as [q|]; [|apply do_act_holds; [exact G|reflexivity|exact O]].
    destruct s as [w p]. cbn [settled fst] in P. destruct (do_act (w, p) (AConn m1 m2 outs ins (Some q))) as [[w' p'] r] eqn:E. cbn [do_act] in E. cbn [fst] in *.
    destruct (build_eq (pw_heap w) q) as [x|] eqn:Hb; cbn [rbind] in E; [|injection E as <- _ _; exact O].
    unfold connect_vars in E. destruct (get_model w m2) as [[s2 d2]|]; [|injection E as <- _ _; exact O].
    destruct (match m1 with CMName _ => _ | CMModel i => _ end); [|injection E as <- _ _; exact O].
    destruct (forallb _ (cv_list ins) && forallb _ (cv_list outs)).
    2: { destruct ins, outs; injection E as <- _ _; exact O. }
    destruct (rbind (qty_names (pw_heap w) (cv_list outs)) _) as [[o i']|]; [|injection E as <- _ _; exact O].
    destruct (on_model w m2 _) as [w1 r1] eqn:E1.
    assert (Q : holds fx w1).
    { apply (on_model_holds _ _ _ _ _ _ O) with (2 := E1). intros m d w2 r2 _ F.
      exact (given_kept _ (mkW (pw_heap w) (pw_uids w) m) _ _ _ _ _ _ P Hb F). }
    destruct r1; injection E as <- _ _; exact Q.
  - (* a connection by expressions *)
    destruct s as [w p]. cbn [settled fst] in P. destruct (do_act (w, p) (AConnN m1 m2 out inp)) as [[w' p'] r] eqn:E. cbn [do_act] in E. cbn [fst] in *.
    destruct (build (pw_heap w) out) as [o|] eqn:Bo; cbn [rbind] in E; [|injection E as <- _ _; exact O].
    destruct (build (pw_heap w) inp) as [i'|] eqn:Bi; cbn [rbind] in E; [|injection E as <- _ _; exact O].
    unfold connect_nodes in E. destruct (get_model w m2) as [[s2 d2]|]; [|injection E as <- _ _; exact O].
    destruct (match m1 with CMName _ => _ | CMModel i => _ end) as [pu r0].
    assert (O' := kept_world fx pu w O).
    destruct r0 as [nm|]; [|injection E as <- _ _; exact O'].
    destruct (node_sub i' (ONode o)) as [nd|] eqn:Es; [|injection E as <- _ _; exact O'].
    destruct (on_model _ m2 _) as [w1 r1] eqn:E1.
    assert (Q : holds fx w1).
    { apply (on_model_holds _ _ _ _ _ _ O') with (2 := E1). intros m d w2 r2 _ F.
      assert (Hb : build_eq (pw_heap w) (UResid (UBin BSub inp out)) = Ok (EANode nd)).
      { cbn [build_eq build]. rewrite Bi. cbn [rbind]. rewrite Bo. cbn [rbind]. unfold node_op. rewrite Es. reflexivity. }
      refine (equation_kept fx (mkW (pw_heap w) (pw_uids w) m) _ _ _ _ _ _ _ Hb F).
      apply (known_imp _ (fun l => occurs l out \/ occurs l inp)); [|exact P]. cbn [eq_occurs occurs]. tauto. }
    destruct r1; injection E as <- _ _; exact Q.
Qed.

Lemma settled_snoc fx acts a : forall s, all_settled fx s (acts ++ [a]) -> all_settled fx s acts /\ settled fx (run_acts s acts) a.
Proof.
  induction acts as [|b acts IH]; intros s; cbn [app all_settled run_acts]; [tauto|]. intros [H1 H2]. destruct (IH _ H2). tauto.
Qed.
Lemma settled_run fx acts : all_settled fx start_session acts -> holds fx (fst (run_acts start_session acts)).
Proof.
  induction acts as [|a acts IH] using rev_ind; intros P; [exact (run_holds fx [] eq_refl)|].
  apply settled_snoc in P. destruct P as [P1 P2]. rewrite run_acts_app. cbn [run_acts].
  apply settled_holds; [apply run_good, start_good|exact P2|now apply IH].
Qed.
Lemma all_plain fx acts : forall s, all_settled fx s acts -> forallb plain acts = true.
Proof.
  induction acts as [|a acts IH]; intros s; cbn [all_settled forallb]; [reflexivity|]. intros [H1 H2].
  now rewrite (settled_plain _ _ _ H1), (IH _ H2).
Qed.
Lemma settled_block fx acts s b : resolved acts s b -> all_settled fx start_session acts -> holds fx (fst s).
Proof.
  intros [H _] P. replace s with (fst (do_act (run_acts start_session acts) AResolve)) by now rewrite H.
  apply settled_holds; [apply run_good, start_good|exact I|now apply settled_run].
Qed.

Lemma settled_symbols fx acts s b e x : resolved acts s b -> all_settled fx start_session acts -> called_then_added acts ->
  In e (b_eqs b) -> has_symbol e x -> In x (b_varlist b).
Proof.
  intros R P C He Hx. destruct (unknowns_usual _ _ _ R (all_plain _ _ _ P) C) as [_ U]. apply U. exists e. split; [exact He|].
  destruct (block_model _ _ _ _ R He) as (i & m & d & k & G & Hin). exact (h_cov _ _ (settled_block _ _ _ _ R P) i m d k e G Hin x Hx).
Qed.
Lemma settled_unknowns acts s b x : resolved acts s b -> all_settled false start_session acts -> called_then_added acts ->
  In x (b_varlist b) -> exists e n, In e (b_eqs b) /\ eq_expr e = Some n /\ In x (fsyms (nd_sym n)).
Proof.
  intros R P C Hx. destruct (unknowns_usual _ _ _ R (all_plain _ _ _ P) C) as [_ U]. apply U in Hx. destruct Hx as (e & He & Hu).
  destruct (block_model _ _ _ _ R He) as (i & m & d & k & G & Hin).
  destruct (h_occ _ _ (settled_block _ _ _ _ R P) eq_refl i m d k e G Hin) as (n & d' & En & _ & _ & Ho). exists e, n. auto.
Qed.
Lemma settled_exprs fx acts s b : resolved acts s b -> all_settled fx start_session acts -> called_then_added acts ->
  forall ex, In ex (b_exprs b) -> incl (fsyms ex) (b_varlist b).
Proof.
  intros R P C ex He x Hx. destruct (resolved_block _ _ _ R) as (_ & B & _).
  destruct (map_res_in _ _ _ _ (bf_list _ _ B) He) as (e & Hin & Es).
  apply (settled_symbols fx acts s b e x R P C Hin). unfold get_symbolic in Es. destruct (eq_elementary e).
  - destruct (eq_elem e) as [[a c]|] eqn:El; [|discriminate]. injection Es as <-. right. exists a, c. auto.
  - destruct (eq_expr e) as [n|] eqn:En; [|discriminate]. injection Es as <-. left. exists n. auto.
Qed.
Lemma settled_function fx acts s b args : resolved acts s b -> all_settled fx start_session acts -> called_then_added acts ->
  (forall e, In e (b_exprs b) -> has_der e = false) -> List.length args = List.length (b_varlist b) ->
  exists vs, call_function (b_varlist b) (b_exprs b) args = Ok vs /\ List.length vs = List.length (b_eqs b).
Proof.
  intros R P C D L. destruct (resolved_block _ _ _ R) as (_ & B & _). rewrite <- (bf_exprs _ _ B).
  apply closed_call; [now symmetry|]. intros ex He. split; [exact (settled_exprs _ _ _ _ R P C ex He)|now apply D].
Qed.

Lemma settled_listed acts s b : resolved acts s b -> all_settled false start_session acts -> called_then_added acts ->
  NoDup (b_varlist b) /\ forall x, In x (b_varlist b) <-> exists e, In e (b_eqs b) /\ has_symbol e x.
Proof.
  intros R O C. split; [exact (proj1 (unknowns_usual _ _ _ R (all_plain _ _ _ O) C))|]. intros x. split.
  - intros Hx. destruct (settled_unknowns _ _ _ _ R O C Hx) as (e & n & He & En & Hn). exists e. split; [exact He|]. left. exists n. auto.
  - intros (e & He & Hs). exact (settled_symbols _ _ _ _ _ _ R O C He Hs).
Qed.

Lemma settled_counts pn acts s b t : prints_numbers pn -> resolved acts s b -> distinct_models acts -> all_settled false start_session acts ->
  called_then_added acts -> pr_time (snd s) = Some [t] -> one_word t = true -> str_contains "_" t = true ->
  (forall e r, In e (b_eqs b) -> eq_type e = Some CDifferential -> analysed e r -> der_free r = true /\ readable t r /\ r <> SSym t) ->
  exists names known, NoDup names /\ (forall x, In x names <-> exists e, In e (b_eqs b) /\ has_symbol e x) /\
    (known = 1%nat /\ time_occurs t (b_eqs b) \/ known = 0%nat /\ ~ time_occurs t (b_eqs b)) /\
    dof_test pn (pw_heap (fst s)) (snd s) =
      if Nat.eqb (List.length names + unspecified_pars (pw_heap (fst s)) (b_pars b)) (list_sum (map (equation_count s) (added acts)) + known)
      then Ok true else Raise EException.
Proof.
  intros P R D O C T W U H. destruct (dof_exact pn acts s b t P R T W U H) as (known & K & E). exists (b_varlist b), known.
  destruct (settled_listed _ _ _ R O C) as [N L]. split; [exact N|]. split; [exact L|]. split; [exact K|].
  rewrite E. now rewrite (block_added _ _ _ R D), equations_count.
Qed.

(** Ordinary sessions are settled. *)
Lemma ordinary_settled fx acts : forall s, forallb (ordinary fx) acts = true -> all_settled fx s acts.
Proof.
  induction acts as [|a acts IH]; intros s; cbn [forallb all_settled]; [exact (fun _ => I)|]. intros H. apply andb_prop in H. destruct H as [H1 H2].
  split; [|now apply IH].
  destruct a as [n d|i c|i|i j f|i|m1 m2 o n e|m1 m2 o n|ns|c|]; cbn [ordinary settled] in *; try exact I; try discriminate H1; try exact H1.
  - destruct c; try discriminate H1; try exact I. now left.
  - destruct e; [discriminate H1|exact I].
Qed.

(** Deciding on examples. *)
Lemma settled_app fx l l' : forall s, all_settled fx s l -> all_settled fx (run_acts s l) l' -> all_settled fx s (l ++ l').
Proof.
  induction l as [|a l IH]; intros s; cbn [app all_settled run_acts]; [tauto|]. intros [A B] C. split; [exact A|]. now apply IH.
Qed.
Definition known_list (h : heap) (ls : list loc) : bool :=
  forallb (fun l => match hget h l with Some o => qkind_eqb (q_kind o) KVariable || q_spec o | None => false end) ls &&
  forallb (fun l => forallb (fun l' => match hget h l, hget h l' with
    | Some o, Some o' => negb (String.eqb (q_name o) (q_name o')) || negb (qkind_eqb (q_kind o) KVariable) || qkind_eqb (q_kind o') KVariable
    | _, _ => true end) ls) ls.
Lemma known_list_ok h (use : loc -> Prop) ls : (forall l, use l -> In l ls) -> known_list h ls = true -> known h use.
Proof.
  intros I H. unfold known_list in H. apply andb_prop in H. destruct H as [A B]. rewrite forallb_forall in A, B. split.
  - intros l U. specialize (A l (I l U)). destruct (hget h l) as [o|]; [|discriminate A]. exists o. split; [reflexivity|].
    apply Bool.orb_prop in A. destruct A as [A|A]; [left; destruct (q_kind o); try discriminate A; reflexivity|now right].
  - intros l l' o o' U U' G G' N K. specialize (B l (I l U)). rewrite forallb_forall in B. specialize (B l' (I l' U')). rewrite G, G' in B.
    rewrite N, String.eqb_refl, K in B. cbn in B. destruct (q_kind o'); try discriminate B; reflexivity.
Qed.

(** ** Residuals (C62) *)
Lemma settled_residuals fx acts s b out : resolved acts s b -> all_settled fx start_session acts -> called_then_added acts ->
  (forall e, In e (b_eqs b) -> eq_elementary e = false) -> (forall x, In x (b_exprs b) -> has_der x = false /\ is_raw x = false) ->
  NoDup (dkeys out) -> incl (b_varlist b) (dkeys out) ->
  exists rows, final_residuals b out = Ok rows /\ Forall2 (states_residual (bind_env out)) (b_eqs b) rows.
Proof.
  intros R P C El D N I. destruct (resolved_block _ _ _ R) as (_ & B & _). unfold final_residuals.
  rewrite <- (bind_results out N). apply (rows_residual _ _ _ (bf_list _ _ B) El). intros x Hx. destruct (D x Hx) as [Dx Rx].
  split; [exact Rx|]. unfold closed. rewrite Dx, Bool.andb_true_r. apply forallb_forall. intros y Hy. apply existsb_exists. exists y.
  split; [|apply String.eqb_refl]. destruct (results_same out N) as [_ G].
  assert (Hin : In y (dkeys out)) by (apply I; exact (settled_exprs fx _ _ _ R P C x Hx y Hy)).
  destruct (in_keys_dget _ _ Hin) as [v Hv]. rewrite <- G in Hv. now apply dget_in_keys in Hv.
Qed.
