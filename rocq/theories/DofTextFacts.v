(** Proofs for C94. *)
From Verif Require Import Base BaseFacts Num UnitModel Sympy Node Build EquationModel EquationFacts ModelModel ProblemModel SpecExpr SpecModel SpecProblem ProblemFacts
  SessionFacts UsualFacts DofFacts SpecSymbols SymbolFacts CountFacts InfoModel ErrorModel SpecErrors LinkFacts SpecDof DofModel.
From Coq Require Import Lia.
Notation num := Verif.Num.num.

(** ** Numbers *)
Lemma digit_read d : (d < 10)%nat -> digit_value (digit d) = Some (Z.of_nat d).
Proof. intros H. do 10 (destruct d as [|d]; [reflexivity|]). lia. Qed.

Lemma aux_read fuel : forall n acc, (n < fuel)%nat -> digits_read 0 (str_nat_aux fuel n acc) = digits_read (Z.of_nat n) acc.
Proof.
  induction fuel as [|f IH]; intros n acc H; [lia|].
  assert (Hm := Nat.mod_upper_bound n 10 ltac:(lia)).
  assert (Hd := Nat.div_mod n 10 ltac:(lia)).
  change (str_nat_aux (S f) n acc) with
    (match Nat.div n 10 with
     | O => String (digit (Nat.modulo n 10)) acc
     | m => str_nat_aux f m (String (digit (Nat.modulo n 10)) acc) end).
  destruct (Nat.div n 10) as [|m] eqn:E.
  - cbn [digits_read]. rewrite digit_read by exact Hm. f_equal. lia.
  - rewrite IH by lia. cbn [digits_read]. rewrite digit_read by exact Hm. f_equal. lia.
Qed.
Lemma nat_read n : digits_read 0 (str_nat n) = Some (Z.of_nat n).
Proof. unfold str_nat. rewrite aux_read by lia. reflexivity. Qed.

Lemma digits_first v c r k : digits_read v (String c r) = Some k -> c <> "-"%char.
Proof. intros H ->. discriminate H. Qed.

Lemma read_plain s k : s <> ""%string -> digits_read 0 s = Some k -> integer_read s = Some k.
Proof.
  destruct s as [|c r]; intros N H; [now destruct N|]. assert (X := digits_first _ _ _ _ H).
  destruct c as [[] [] [] [] [] [] [] []]; try exact H. now destruct X.
Qed.
Lemma aux_filled fuel : forall n c r, exists c' r', str_nat_aux fuel n (String c r) = String c' r'.
Proof.
  induction fuel as [|f IH]; intros n c r; [now exists c, r|].
  change (str_nat_aux (S f) n (String c r)) with
    (match Nat.div n 10 with
     | O => String (digit (Nat.modulo n 10)) (String c r)
     | m => str_nat_aux f m (String (digit (Nat.modulo n 10)) (String c r)) end).
  destruct (Nat.div n 10); [eauto|apply IH].
Qed.
Lemma nat_filled n : exists c r, str_nat n = String c r.
Proof.
  unfold str_nat.
  change (str_nat_aux (S n) n "") with
    (match Nat.div n 10 with
     | O => String (digit (Nat.modulo n 10)) ""
     | m => str_nat_aux n m (String (digit (Nat.modulo n 10)) "") end).
  destruct (Nat.div n 10) as [|m]; [eauto|apply aux_filled].
Qed.

Lemma int_read z : integer_read (int_text z) = Some z.
Proof.
  unfold int_text. destruct (Z.ltb_spec z 0) as [H|H].
  - assert (R := nat_read (Z.to_nat (- z))). destruct (nat_filled (Z.to_nat (- z))) as (c & r & E). rewrite E in *.
    change (option_map Z.opp (digits_read 0 (String c r)) = Some z). rewrite R. cbn [option_map]. f_equal. lia.
  - assert (R := nat_read (Z.to_nat z)). destruct (nat_filled (Z.to_nat z)) as (c & r & E).
    rewrite (read_plain (str_nat (Z.to_nat z)) _ ltac:(rewrite E; discriminate) R). f_equal. lia.
Qed.

(** ** Lists *)
Lemma rest_text : forall l x, (join ", " (map quote (x :: l)) ++ "]")%string = (quote x ++ quoted_rest l)%string.
Proof.
  induction l as [|y l IH]; intros x; [reflexivity|]. cbn [map quoted_rest]. cbn [map] in IH.
  change (join ", " (quote x :: quote y :: map quote l)) with (quote x ++ ", " ++ join ", " (quote y :: map quote l))%string.
  rewrite <- IH. rewrite !append_assoc_s. reflexivity.
Qed.
Lemma names_quoted l : names_text l = quoted l.
Proof.
  destruct l as [|x l]; [reflexivity|]. unfold names_text, quoted. change (fun x => "'" ++ x ++ "'")%string with quote. f_equal. apply rest_text.
Qed.

(** ** The text *)
Lemma shows_here p a : shows (p ++ a) p.
Proof. exists ""%string, a. reflexivity. Qed.
Lemma shows_later b t p : shows t p -> shows (b ++ t) p.
Proof. intros (x & y & ->). exists (b ++ x)%string, y. now rewrite append_assoc_s. Qed.

Lemma refusal_opens pe c : opens_with (dof_text pe c) (if df_over c then "OVER" else "UNDER") (df_free c).
Proof. exists (int_text (df_free c)). eexists. split; [apply int_read|]. unfold dof_text. reflexivity. Qed.
Lemma refusal_vars pe c : lists (dof_text pe c) "variables" (df_vars c).
Proof.
  exists (int_text (Z.of_nat (List.length (df_vars c)))). split; [apply int_read|]. rewrite <- names_quoted. unfold dof_text.
  do 7 apply shows_later. eexists "   "%string, _. do 4 (rewrite ?append_assoc_s; cbn [append]). reflexivity.
Qed.
Lemma refusal_pars pe c : lists (dof_text pe c) "unspecified params" (df_pars c).
Proof.
  exists (int_text (Z.of_nat (List.length (df_pars c)))). split; [apply int_read|]. rewrite <- names_quoted. unfold dof_text.
  do 13 apply shows_later. eexists ""%string, _. do 4 (rewrite ?append_assoc_s; cbn [append]). reflexivity.
Qed.
Lemma refusal_eqs pe c : numbers (dof_text pe c) (df_eqs c).
Proof.
  exists (int_text (Z.of_nat (df_eqs c))). split; [apply int_read|]. unfold dof_text.
  do 19 apply shows_later. eexists ""%string, _. do 4 (rewrite ?append_assoc_s; cbn [append]). reflexivity.
Qed.

(** ** The check *)
Lemma unset_exact h : forall d, (forall x l, In (x, l) d -> hget h l <> None) ->
  exists ns, unspecified_names h d = Ok ns /\ unset h d ns /\ List.length ns = unspecified_pars h d.
Proof.
  induction d as [|[x l] d IH]; intros H; [exists []; split; [reflexivity|split; [|reflexivity]]; exists []; split; [constructor|reflexivity]|].
  destruct IH as (ns & E & (qs & F & ->) & L); [intros y i Hi; apply (H y i); now right|].
  cbn [unspecified_names]. unfold unspecified_pars in *. cbn [filter snd].
  destruct (hget h l) as [q|] eqn:G; [|now destruct (H x l (or_introl eq_refl))]. rewrite E. cbn [rbind].
  exists (if q_spec q then map q_name (filter (fun q => negb (q_spec q)) qs) else q_name q :: map q_name (filter (fun q => negb (q_spec q)) qs)).
  split; [reflexivity|]. split.
  - exists (q :: qs). split; [now constructor|]. cbn [filter]. destruct (q_spec q); reflexivity.
  - destruct (q_spec q); cbn [negb]; [exact L|]. cbn [List.length]. now rewrite L.
Qed.

Lemma names_count h : forall d, match unspecified_names h d with Ok ns => unspecified h d = Ok (List.length ns) | Raise x => unspecified h d = Raise x end.
Proof.
  induction d as [|[x l] d IH]; [reflexivity|]. cbn [unspecified_names unspecified]. destruct (hget h l) as [q|]; [|reflexivity].
  destruct (unspecified_names h d) as [ns|e]; rewrite IH; cbn [rbind]; [|reflexivity]. destruct (q_spec q); reflexivity.
Qed.

Lemma analysis_same pn h p : dof_test pn h p =
  match dof_analysis pn h p with Ok None => Ok true | Ok (Some _) => Raise EException | Raise x => Raise x end.
Proof.
  unfold dof_test, dof_analysis. destruct (pr_block p) as [b|]; [|reflexivity]. assert (C := names_count h (b_pars b)).
  destruct (unspecified_names h (b_pars b)) as [ns|x]; rewrite C; cbn [rbind]; [|reflexivity].
  destruct (has_var pn (pr_time p) (b_diff b)) as [t|x]; cbn [rbind]; [|reflexivity].
  set (v := List.length (b_varlist b)). set (n := List.length ns). set (e := (List.length (b_exprs b) + (if t then 1 else 0))%nat).
  destruct (Z.ltb_spec (Z.of_nat v + Z.of_nat n - Z.of_nat e) 0); [|destruct (Z.ltb_spec 0 (Z.of_nat v + Z.of_nat n - Z.of_nat e))];
    destruct (Nat.eqb_spec (v + n) e); (reflexivity || lia).
Qed.

(** What the check says when it comes to an end. *)
Lemma analysis_told pn pe h p b ns k : pr_block p = Some b -> unspecified_names h (b_pars b) = Ok ns -> has_var pn (pr_time p) (b_diff b) = Ok k ->
  match dof_analysis pn h p with
  | Ok None => (List.length (b_varlist b) + List.length ns = List.length (b_exprs b) + (if k then 1 else 0))%nat
  | Ok (Some c) => well_told (dof_text pe c) (b_varlist b) ns (List.length (b_exprs b) + (if k then 1 else 0))
  | Raise _ => False
  end.
Proof.
  intros B N K. unfold dof_analysis. rewrite B, N. cbn [rbind]. rewrite K. cbn [rbind].
  set (e := (List.length (b_exprs b) + (if k then 1 else 0))%nat).
  assert (A : forall c, df_vars c = b_varlist b -> df_pars c = ns -> df_eqs c = e ->
     df_free c = Z.of_nat (List.length (b_varlist b)) + Z.of_nat (List.length ns) - Z.of_nat e ->
     df_free c <> 0 -> df_over c = (df_free c <? 0) -> well_told (dof_text pe c) (b_varlist b) ns e).
  { intros c <- <- <- F N0 O. assert (F' : Z.of_nat (List.length (df_vars c) + List.length (df_pars c)) - Z.of_nat (df_eqs c) = df_free c) by lia.
    unfold well_told. rewrite F'. split; [exact N0|]. assert (P := refusal_opens pe c). rewrite O in P.
    split; [|split; [|split; [apply refusal_vars|split; [apply refusal_pars|apply refusal_eqs]]]]; intros L;
      destruct (Z.ltb_spec (df_free c) 0); (exact P || lia). }
  destruct (Z.ltb_spec (Z.of_nat (List.length (b_varlist b)) + Z.of_nat (List.length ns) - Z.of_nat e) 0) as [L|L];
    [|destruct (Z.ltb_spec 0 (Z.of_nat (List.length (b_varlist b)) + Z.of_nat (List.length ns) - Z.of_nat e)) as [L'|L']; [|lia]].
  - apply A; try reflexivity; cbn [df_over df_free]; [lia|]. symmetry. now apply Z.ltb_lt.
  - apply A; try reflexivity; cbn [df_over df_free]; [lia|]. symmetry. now apply Z.ltb_ge.
Qed.

(** ** Sessions *)

Lemma session_unset acts s b : resolved acts s b -> exists ns, unspecified_names (pw_heap (fst s)) (b_pars b) = Ok ns /\ unset (pw_heap (fst s)) (b_pars b) ns.
Proof.
  intros R. destruct (resolved_block _ _ _ R) as (G & B & _ & _).
  destruct (unset_exact (pw_heap (fst s)) (b_pars b)) as (ns & E & N & _); [|eauto].
  intros x l Hin. apply (bf_pars _ _ B) in Hin. apply (g_pars _ G x), Hin.
Qed.

Lemma told_dynamic pn pe acts s b t : prints_numbers pn -> resolved acts s b -> pr_time (snd s) = Some [t] ->
  one_word t = true -> str_contains "_" t = true ->
  (forall e r, In e (b_eqs b) -> eq_type e = Some CDifferential -> analysed e r -> der_free r = true /\ readable t r /\ r <> SSym t) ->
  exists ns known, unset (pw_heap (fst s)) (b_pars b) ns /\
    (known = 1%nat /\ time_occurs t (b_eqs b) \/ known = 0%nat /\ ~ time_occurs t (b_eqs b)) /\
    match dof_analysis pn (pw_heap (fst s)) (snd s) with
    | Ok None => (List.length (b_varlist b) + List.length ns = List.length (b_eqs b) + known)%nat
    | Ok (Some c) => well_told (dof_text pe c) (b_varlist b) ns (List.length (b_eqs b) + known)
    | Raise _ => False
    end.
Proof.
  intros P R T W U H. destruct (session_unset _ _ _ R) as (ns & En & N). destruct (resolved_block _ _ _ R) as (G & B & _ & _).
  destruct (bf_groups _ _ B) as (_ & _ & Ld).
  assert (HD : forall e, In e (b_diff b) <-> In e (b_eqs b) /\ eq_type e = Some CDifferential) by (intros e; rewrite Ld, filter_In, has_type_spec; tauto).
  destruct (has_var_exact pn t (b_diff b) P W U) as (k & Ek & Hk).
  - intros e r He Ha. apply HD in He. destruct He as [He Te]. exact (H e r He Te Ha).
  - intros e He. apply HD in He. apply (symbolic_total (pw_heap (fst s))). now apply (bf_ok _ _ B).
  - assert (Hk' : k = true <-> time_occurs t (b_eqs b)).
    { rewrite Hk. unfold time_occurs. split.
      - intros (e & r & He & X). apply HD in He. exists e, r. tauto.
      - intros (e & r & He & Te & X). exists e, r. rewrite HD. tauto. }
    exists ns, (if k then 1%nat else 0%nat). split; [exact N|]. split.
    + destruct k; [left; split; [reflexivity|now apply Hk']|right; split; [reflexivity|]]. intros X. apply Hk' in X. discriminate.
    + rewrite <- T in Ek. assert (A := analysis_told pn pe (pw_heap (fst s)) (snd s) b ns k (proj2 R) En Ek).
      assert (L : List.length (b_exprs b) = List.length (b_eqs b)) by (exact (bf_exprs _ _ B)).
      rewrite L in A. exact A.
Qed.

Lemma told_steady pn pe acts s b : resolved acts s b -> (forall e, In e (b_eqs b) -> eq_type e <> Some CDifferential) ->
  exists ns, unset (pw_heap (fst s)) (b_pars b) ns /\
    match dof_analysis pn (pw_heap (fst s)) (snd s) with
    | Ok None => (List.length (b_varlist b) + List.length ns = List.length (b_eqs b))%nat
    | Ok (Some c) => well_told (dof_text pe c) (b_varlist b) ns (List.length (b_eqs b))
    | Raise _ => False
    end.
Proof.
  intros R H. destruct (session_unset _ _ _ R) as (ns & En & N). destruct (resolved_block _ _ _ R) as (G & B & _ & _).
  destruct (bf_groups _ _ B) as (_ & _ & Ld).
  assert (D : b_diff b = []).
  { destruct (b_diff b) as [|e r] eqn:Eb; [reflexivity|]. assert (He : In e (e :: r)) by now left.
    rewrite Ld, filter_In, has_type_spec in He. now destruct (H e (proj1 He)). }
  assert (Ek : has_var pn (pr_time (snd s)) (b_diff b) = Ok false) by (rewrite D; reflexivity).
  exists ns. split; [exact N|]. assert (A := analysis_told pn pe (pw_heap (fst s)) (snd s) b ns false (proj2 R) En Ek).
  assert (L : List.length (b_exprs b) = List.length (b_eqs b)) by (exact (bf_exprs _ _ B)).
  cbn iota in A. rewrite L, Nat.add_0_r in A. exact A.
Qed.

(** With ordinary programs, the unknowns are the symbols of the equations. *)
Lemma told_symbols acts s b : resolved acts s b -> forallb (ordinary false) acts = true -> called_then_added acts ->
  NoDup (b_varlist b) /\ forall x, In x (b_varlist b) <-> exists e, In e (b_eqs b) /\ has_symbol e x.
Proof.
  intros R O C. split; [exact (proj1 (unknowns_usual _ _ _ R (ordinary_plain _ _ O) C))|]. intros x. split.
  - intros Hx. destruct (unknowns_symbols _ _ _ _ R O C Hx) as (e & n & He & En & Hn). exists e. split; [exact He|]. left. exists n. auto.
  - intros (e & He & Hs). exact (symbols_unknowns _ _ _ _ _ _ R O C He Hs).
Qed.
