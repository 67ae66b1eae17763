(** What programs say whose models incorporate other models (C82). *)
From Verif Require Import Base BaseFacts Num NumFacts UnitModel UnitFacts Sympy Node Build EquationModel ModelModel ProblemModel
  SpecUnits UnitThms SpecExpr SpecQty QtyFacts SpecModel BuildFacts EquationFacts ModelFacts SpecInc IncFacts SpecCall CallFacts
  SpecProblem ProblemFacts SessionFacts UsualFacts ConnFacts SpecLink LinkFacts SolverModel SpecSolver SolverFacts OdeFacts DaeFacts SpecSymbols SymbolFacts
  SpecTrace SpecWritten WrittenFacts SpecExact ExactFacts SpecOwn OwnFacts SpecSession ViewFacts SpecSaid SaidFacts EqInvFacts TraceFacts SpecCompose.
From Coq Require Import Reals Lra.
Notation num := Verif.Num.num.

(** ** The quantities of a model *)
Definition reg (k : qkind) (m : mstate) : dict loc :=
  match k with KVariable => m_vars m | KParameter => m_pars m | KConstant => m_cons m | KQuantity => [] end.
Notation made := (list (string * string * qkind)).
Record objs (h : heap) (m : mstate) (D : dict thing) (mk : made) : Prop := mkObjs {
  ob_oa : oa h m;
  ob_stands : forall u, stands (mkW h u m) D;
  ob_nodup : forall kd, NoDup (dkeys (reg kd m));
  ob_reg : forall kd k l, In (k, l) (reg kd m) -> exists a n q, In (a, n, kd) mk /\ k = full_name n (m_name m) /\ clean n = true /\
             hget h l = Some q /\ q_name q = k /\ q_owner q = m_name m;
  ob_made : forall a n kd, In (a, n, kd) mk -> In (full_name n (m_name m)) (dkeys (reg kd m));
  ob_held : (forall x, In x mk -> fst (fst x) = made_name x) -> forall a t, dget a D = Some t ->
             exists kd l, attr_qty m a = Ok l /\ dget (full_name a (m_name m)) (reg kd m) = Some l }.

Lemma objs_ext h m D D' mk mk' : (forall a, dget a D' = dget a D) -> (forall x, In x mk' <-> In x mk) -> objs h m D mk -> objs h m D' mk'.
Proof.
  intros E I [A S N R M H]. constructor; auto.
  - intros u. destruct (S u) as [S1 S2]. constructor.
    + intros a t Ha. apply S1. now rewrite <- E.
    + intros a b l Ha Hb. apply S2; now rewrite <- E.
  - intros kd k l Hk. destruct (R kd k l Hk) as (a & n & q & Hin & X). exists a, n, q. split; [now apply I|exact X].
  - intros a n kd Hin. apply (M a n kd). now apply I.
  - intros P a t Ha. apply (H) with (t := t); [intros x Hx; apply P; now apply I|]. now rewrite <- E.
Qed.

Lemma objs_same h m m' D mk : m_name m' = m_name m -> m_attrs m' = m_attrs m -> (forall kd, reg kd m' = reg kd m) -> objs h m D mk -> objs h m' D mk.
Proof.
  intros N A R [O S Nd Rg M H]. constructor.
  - exact (oa_attrs _ _ _ A O).
  - intros u. destruct (S u) as [S1 S2]. cbn [w_heap w_mod] in *. constructor; cbn [w_heap w_mod].
    + intros a t Ha. rewrite (attr_same _ _ a A). now apply S1.
    + intros a b l Ha Hb. rewrite (attr_same _ _ a A), (attr_same _ _ b A). now apply S2.
  - intros kd. now rewrite R.
  - intros kd k l. rewrite R, N. apply Rg.
  - intros a n kd. rewrite R, N. apply M.
  - intros P a t Ha. destruct (H P a t Ha) as (kd & l & X & Y). exists kd, l. rewrite (attr_same _ _ a A), R, N. auto.
Qed.

Lemma stands_any w m a q D u : m_attrs m = m_attrs (w_mod w) -> stands w D ->
  stands (mkW (w_heap w ++ [q]) u (set_attr m a (AQty (List.length (w_heap w))))) (dset a (mkThing (q_name q) (q_value q) (q_spec q)) D).
Proof.
  intros Em [S1 S2]. constructor; cbn [w_heap w_mod].
  - intros b t Hb. rewrite attr_set. rewrite dget_dset in Hb. rewrite String.eqb_sym in Hb. destruct (String.eqb a b).
    + injection Hb as <-. eexists _, q. split; [reflexivity|]. split; [apply ProblemFacts.hget_last|]. auto.
    + destruct (S1 b t Hb) as (l & o & A & E & R). exists l, o. split; [unfold attr_qty; rewrite Em; exact A|]. split; [now apply hget_app|exact R].
  - assert (F : forall b l, dget b D <> None -> attr_qty m b = Ok l -> l <> List.length (w_heap w)).
    { intros b l Hb A. destruct (dget b D) as [t|] eqn:Eb; [|congruence]. destruct (S1 b t Eb) as (l' & o & A' & E & _).
      unfold attr_qty in A. rewrite Em in A. fold (attr_qty (w_mod w) b) in A. assert (l' = l) by congruence. subst l'.
      apply hget_lt in E. intros ->. exact (Nat.lt_irrefl _ E). }
    intros b c l Hb Hc. rewrite !attr_set. rewrite !dget_dset in *. rewrite (String.eqb_sym b a) in Hb. rewrite (String.eqb_sym c a) in Hc.
    destruct (String.eqb_spec a b) as [<-|Nb], (String.eqb_spec a c) as [<-|Nc]; intros A1 A2; auto.
    + injection A1 as <-. exfalso. exact (F c _ Hc A2 eq_refl).
    + injection A2 as <-. exfalso. exact (F b _ Hb A1 eq_refl).
    + apply (S2 b c l Hb Hc); unfold attr_qty; rewrite <- Em; assumption.
Qed.

(** A new quantity. *)
Lemma objs_new h m m1 D mk a n kd q : objs h m D mk -> m_name m1 = m_name m -> m_attrs m1 = m_attrs m ->
  reg kd m1 = dset (full_name n (m_name m)) (List.length h) (reg kd m) -> (forall k, k <> kd -> reg k m1 = reg k m) ->
  q_name q = full_name n (m_name m) -> q_owner q = m_name m -> clean n = true ->
  objs (h ++ [q]) (set_attr m1 a (AQty (List.length h))) (dset a (mkThing (q_name q) (q_value q) (q_spec q)) D) ((a, n, kd) :: mk).
Proof.
  intros [O S Nd Rg M H] N A R Ro Qn Qo C.
  assert (Rs : forall k, reg k (set_attr m1 a (AQty (List.length h))) = reg k m1) by (intros []; reflexivity).
  assert (Nm : m_name (set_attr m1 a (AQty (List.length h))) = m_name m) by exact N.
  assert (Kd : forall k k' : qkind, {k = k'} + {k <> k'}) by decide equality.
  constructor.
  - now apply (oa_new h m).
  - intros u. exact (stands_any (mkW h u m) m1 a q D u A (S u)).
  - intros k. rewrite Rs. destruct (Kd k kd) as [->|Ne]; [rewrite R; now apply nodup_dset|rewrite (Ro k Ne); apply Nd].
  - intros k x l Hin. rewrite Rs in Hin. rewrite Nm.
    assert (Old : In (x, l) (reg k m) -> exists a0 n0 q0, In (a0, n0, k) ((a, n, kd) :: mk) /\ x = full_name n0 (m_name m) /\ clean n0 = true /\
       hget (h ++ [q]) l = Some q0 /\ q_name q0 = x /\ q_owner q0 = m_name m).
    { intros Hi. destruct (Rg k x l Hi) as (a0 & n0 & q0 & X1 & X2 & X3 & X4 & X5). exists a0, n0, q0. split; [now right|]. split; [exact X2|].
      split; [exact X3|]. split; [now apply hget_app|exact X5]. }
    destruct (Kd k kd) as [->|Ne]; [|rewrite (Ro k Ne) in Hin; exact (Old Hin)].
    rewrite R in Hin. apply in_dset in Hin. destruct Hin as [[-> ->]|Hin]; [|exact (Old Hin)].
    exists a, n, q. split; [now left|]. split; [reflexivity|]. split; [exact C|]. split; [apply ProblemFacts.hget_last|]. auto.
  - intros a0 n0 k Hin. rewrite Rs, Nm. destruct Hin as [E|Hin].
    + injection E as <- <- <-. rewrite R. apply in_dkeys_dset. now left.
    + specialize (M a0 n0 k Hin). destruct (Kd k kd) as [->|Ne]; [rewrite R; apply in_dkeys_dset; now right|now rewrite (Ro k Ne)].
  - intros P b t Hb. rewrite dget_dset in Hb. rewrite attr_set. rewrite String.eqb_sym in Hb.
    assert (a = n) by exact (P _ (or_introl eq_refl)). subst n. destruct (String.eqb_spec a b) as [<-|Ne].
    + exists kd, (List.length h). split; [reflexivity|]. rewrite Rs, R, Nm. apply dget_dset_eq.
    + destruct (H (fun x Hx => P x (or_intror Hx)) b t Hb) as (k & l & X & Y). exists k, l. rewrite (attr_same _ _ b A). split; [exact X|].
      rewrite Rs, Nm. destruct (Kd k kd) as [->|Nk]; [|now rewrite (Ro k Nk)]. rewrite R, dget_dset_neq; [exact Y|].
      intros E. apply full_inj_same in E. congruence.
Qed.

(** An equation as attribute. *)
Lemma objs_eqn h m m1 D mk a e : objs h m D mk -> m_name m1 = m_name m -> m_attrs m1 = m_attrs m -> (forall kd, reg kd m1 = reg kd m) ->
  objs h (set_attr m1 a (AEqn e)) (forget a D) mk.
Proof.
  intros [O S Nd Rg M H] N A R.
  assert (Rs : forall k, reg k (set_attr m1 a (AEqn e)) = reg k m) by (intros k; rewrite <- R; destruct k; reflexivity).
  assert (Nm : m_name (set_attr m1 a (AEqn e)) = m_name m) by exact N.
  constructor.
  - now apply (oa_eqn h m).
  - intros u. exact (stands_forget (mkW h u m) m1 a e D u A (S u)).
  - intros k. rewrite Rs. apply Nd.
  - intros k x l. rewrite Rs, Nm. apply Rg.
  - intros a0 n0 k. rewrite Rs, Nm. apply M.
  - intros P b t Hb. rewrite dget_forget in Hb. rewrite attr_set. destruct (String.eqb a b); [discriminate|].
    destruct (H P b t Hb) as (k & l & X & Y). exists k, l. rewrite (attr_same _ _ b A), Rs, Nm. auto.
Qed.

(** Quantities that are changed keep their names. *)
Lemma objs_heap h h' m D D' mk : objs h m D mk -> same_ids h h' -> (List.length h <= List.length h')%nat ->
  (forall u, stands (mkW h' u m) D') -> (forall a t, dget a D' = Some t -> dget a D <> None) -> objs h' m D' mk.
Proof.
  intros [O S Nd Rg M H] I L S' Sub. constructor; auto.
  - exact (oa_heap _ _ _ L O).
  - intros kd k l Hin. destruct (Rg kd k l Hin) as (a & n & q & X1 & X2 & X3 & X4 & X5 & X6). destruct (I l q X4) as (q' & G & N & W & _).
    exists a, n, q'. split; [exact X1|]. split; [exact X2|]. split; [exact X3|]. split; [exact G|]. split; congruence.
  - intros P a t Ha. destruct (dget a D) as [s|] eqn:E; [|destruct (Sub a t Ha E)]. exact (H P a s E).
Qed.

Lemma note_keys M D a x u b t : dget b (note M D (CSet a x u)) = Some t -> dget b D <> None.
Proof.
  cbn [note]. destruct (dget a D) as [s|] eqn:E.
  - destruct (handed D x); [|intros H; apply forget_sub in H; congruence]. rewrite dget_dset. destruct (String.eqb_spec b a) as [->|]; congruence.
  - intros H. apply forget_sub in H. congruence.
Qed.

(** ** Equations *)
Definition filed (p : place) (M : string) (e : eqn) : Prop :=
  match p with PEq n => eq_name e = full_name n M /\ eq_owner e = M | _ => True end.
Record ledger (acts : list act) (m : mstate) (L : list (place * written)) : Prop := mkLedger {
  le_says : forall p x, In (p, x) L -> exists e, dget (key_of acts p (m_name m)) (m_eqs m) = Some e /\ says x e /\ filed p (m_name m) e;
  le_all : forall k e, dget k (m_eqs m) = Some e -> exists p x, In (p, x) L /\ key_of acts p (m_name m) = k;
  le_fine : forall p x, In (p, x) L -> fine acts p;
  le_one : forall p x y, In (p, x) L -> In (p, y) L -> x = y }.

Lemma in_file p x L q y : In (q, y) (file p x L) <-> (q = p /\ y = x) \/ (In (q, y) L /\ q <> p).
Proof.
  unfold file. cbn [In]. rewrite filter_In. cbn [fst]. split.
  - intros [E|[H E]]; [injection E as <- <-; now left|]. destruct (place_dec p q); [discriminate|]. right. split; congruence.
  - intros [[-> ->]|[H E]]; [now left|]. right. split; [exact H|]. destruct (place_dec p q); congruence.
Qed.

Lemma ledger_file acts m m' L p x e : ledger acts m L -> m_name m' = m_name m -> clean (m_name m) = true ->
  m_eqs m' = dset (key_of acts p (m_name m)) e (m_eqs m) -> says x e -> filed p (m_name m) e -> fine acts p -> ledger acts m' (file p x L).
Proof.
  intros [S A F O] N C E Sx Fl Fp. constructor; rewrite ?N, ?E.
  - intros q y H. apply in_file in H. destruct H as [[-> ->]|[H Ne]].
    + exists e. split; [apply dget_dset_eq|auto].
    + destruct (S q y H) as (e' & G & X). exists e'. split; [|exact X]. rewrite dget_dset_neq; [exact G|]. intros Ek.
      apply Ne. exact (key_inj _ _ _ _ C (F q y H) Fp Ek).
  - intros k e'. rewrite dget_dset. destruct (String.eqb_spec k (key_of acts p (m_name m))) as [->|Ne]; intros H.
    + exists p, x. split; [apply in_file; now left|reflexivity].
    + destruct (A k e' H) as (q & y & Hq & Eq). exists q, y. split; [|exact Eq]. apply in_file. right. split; [exact Hq|]. intros ->. congruence.
  - intros q y H. apply in_file in H. destruct H as [[-> _]|[H _]]; [exact Fp|exact (F q y H)].
  - intros q y z H1 H2. apply in_file in H1, H2. destruct H1 as [[-> ->]|[H1 N1]], H2 as [[E2 ->]|[H2 N2]]; try congruence. exact (O q y z H1 H2).
Qed.
Lemma ledger_same acts m m' L : m_name m' = m_name m -> m_eqs m' = m_eqs m -> ledger acts m L -> ledger acts m' L.
Proof. intros N E [S A F O]. constructor; rewrite ?N, ?E; auto. Qed.
Lemma ledger_more acts b m L : ledger acts m L -> ledger (acts ++ b) m L.
Proof.
  intros [S A F O].
  assert (K : forall p x, In (p, x) L -> key_of (acts ++ b) p (m_name m) = key_of acts p (m_name m))
    by (intros p x H; apply key_more; intros t; apply fine_time; exact (F p x H)).
  constructor; auto.
  - intros p x H. rewrite (K p x H). now apply S.
  - intros k e H. destruct (A k e H) as (p & x & Hp & E). exists p, x. split; [exact Hp|]. now rewrite (K p x Hp).
  - intros p x H. apply fine_more. exact (F p x H).
Qed.
Lemma ledger_ext acts m L L' : (forall px, In px L' <-> In px L) -> ledger acts m L -> ledger acts m L'.
Proof.
  intros I [S A F O]. constructor.
  - intros p x H. apply S. now apply I.
  - intros k e H. destruct (A k e H) as (p & x & Hp & E). exists p, x. split; [now apply I|exact E].
  - intros p x H. apply (F p x). now apply I.
  - intros p x y H1 H2. apply (O p); now apply I.
Qed.

(** ** The account of a model *)
Record tallies (acts : list act) (h : heap) (m : mstate) (d : decls) (v : account) : Prop := mkTallies {
  ta_name : ac_name v = m_name m;
  ta_decls : vw_decls (ac_view v) = d;
  ta_clean : clean (m_name m) = true /\ forallb clean_cmd (script d) = true;
  ta_objs : objs h m (ac_things v) (ac_made v);
  ta_ledger : ledger acts m (ac_says v) }.

Lemma tallies_more acts b h m d v : tallies acts h m d v -> tallies (acts ++ b) h m d v.
Proof. intros [A B C D E]. constructor; auto. now apply ledger_more. Qed.

Lemma cmd_tallies acts d v v' w c w' : run_cmd w c = (w', Ok tt) -> clean_cmd c = true -> account_cmd c v = Some v' ->
  tallies acts (w_heap w) (w_mod w) d v -> tallies acts (w_heap w') (w_mod w') d v'.
Proof.
  intros H Cc Ac [Nm Dc Cl Ob Le].
  assert (Nm' : m_name (w_mod w') = m_name (w_mod w)) by exact (run_cmd_name _ _ _ _ H).
  assert (St : stands w' (note (m_name (w_mod w)) (ac_things v) c)).
  { apply (cmd_noted _ _ _ _ H); [|exact (ob_oa _ _ _ _ Ob)]. destruct (ob_stands _ _ _ _ Ob (w_uids w)) as [S1 S2]. constructor; [exact S1|exact S2]. }
  assert (Fin : forall vw mk L, vw = told c (ac_view v) -> objs (w_heap w') (w_mod w') (note (m_name (w_mod w)) (ac_things v) c) mk -> ledger acts (w_mod w') L ->
    tallies acts (w_heap w') (w_mod w') d (mkAccount vw mk L)).
  { intros vw mk L -> Ho Hl. constructor; cbn [ac_view ac_made ac_says told restate vw_name vw_decls vw_things]; [congruence|exact Dc|now rewrite Nm'| |exact Hl].
    now rewrite Nm. }
  destruct w as [h u m]. cbn [w_heap w_mod w_uids] in *.
  destruct c as [a n un ex ty x|a n un x|a n un x|a x un|a|a n q check]; cbn [account_cmd clean_cmd] in *.
  - injection Ac as <-. apply Fin; [reflexivity| |].
    + cbn [run_cmd w_heap w_mod w_uids] in H. unfold assign_qty, create_variable in H.
      destruct ex; [destruct (String.eqb ty "input"); [|destruct (String.eqb ty "output")]|]; try discriminate H; injection H as <-; cbn [w_heap w_mod note];
        match goal with |- objs (_ ++ [?o]) (set_attr ?mm _ _) _ _ => apply (objs_new h m mm _ _ a n KVariable o Ob); try reflexivity; [intros []; try reflexivity; congruence|exact Cc] end.
    + apply (ledger_same acts m); [exact Nm'| |exact Le]. cbn [run_cmd w_heap w_mod w_uids] in H. unfold assign_qty, create_variable in H.
      destruct ex; [destruct (String.eqb ty "input"); [|destruct (String.eqb ty "output")]|]; try discriminate H; injection H as <-; reflexivity.
  - injection Ac as <-. injection H as <-. apply Fin; [reflexivity| |now apply (ledger_same acts m)]. cbn [w_heap w_mod note].
    match goal with |- objs (_ ++ [?o]) (set_attr ?mm _ _) _ _ => apply (objs_new h m mm _ _ a n KParameter o Ob); try reflexivity; [intros []; try reflexivity; congruence|exact Cc] end.
  - injection Ac as <-. injection H as <-. apply Fin; [reflexivity| |now apply (ledger_same acts m)]. cbn [w_heap w_mod note].
    match goal with |- objs (_ ++ [?o]) (set_attr ?mm _ _) _ _ => apply (objs_new h m mm _ _ a n KConstant o Ob); try reflexivity; [intros []; try reflexivity; congruence|exact Cc] end.
  - injection Ac as <-. cbn [run_cmd w_heap w_mod w_uids] in H. destruct (attr_qty m a) as [l|]; [|discriminate]. destruct (match x with SANum _ => _ | SAAttr _ => _ end) as [sv|]; [|discriminate].
    assert (I := set_value_ids h l sv un). destruct (heap_set_value h l sv un) as [h' r] eqn:Eh. cbn [fst] in I. injection H as <- ->. cbn [w_heap w_mod] in *.
    apply Fin; [reflexivity| |exact Le].
    apply (objs_heap h h' m (ac_things v)); [exact Ob|exact I| | |].
    + unfold heap_set_value in Eh. destruct (hget h l); [|discriminate]. destruct (set_value _ _ _); [|discriminate]. injection Eh as <-. rewrite length_hset. apply le_n.
    + intros u'. destruct St as [S1 S2]. constructor; [exact S1|exact S2].
    + intros b t. apply note_keys.
  - injection Ac as <-. cbn [run_cmd w_heap w_mod w_uids] in H. destruct (attr_qty m a) as [l|]; [|discriminate]. destruct (hget h l) as [q|] eqn:G; [|discriminate].
    destruct (qkind_eqb _ _); [|discriminate]. injection H as <-. cbn [w_heap w_mod] in *. apply Fin; [reflexivity| |exact Le].
    apply (objs_heap h _ m (ac_things v)); [exact Ob|now apply set_domain_ids|rewrite length_hset; apply le_n| |].
    + intros u'. destruct St as [S1 S2]. constructor; [exact S1|exact S2].
    + intros b t Hb. cbn [note] in Hb. congruence.
  - destruct (eq_known (ac_things v) q && negb (String.eqb n "")) eqn:K; [|discriminate]. injection Ac as <-.
    apply andb_prop in Cc. destruct Cc as [Cn _].
    assert (S := ob_stands _ _ _ _ Ob u).
    destruct (cmd_written (ac_things v) _ _ _ H S K) as [_ (e & Ee & En & Se)]. cbn [w_mod] in *.
    assert (X : exists e', m_name (w_mod w') = m_name m /\ (forall kd, reg kd (w_mod w') = reg kd m) /\ w_heap w' = h /\
       w_mod w' = set_attr (with_eqs m (dset (full_name n (m_name m)) e (m_eqs m))) a (AEqn e') /\ eq_owner e = m_name m).
    { apply andb_prop in K. destruct K as [_ Kn]. apply Bool.negb_true_iff in Kn.
      cbn [run_cmd w_heap w_mod w_uids] in H. destruct (rbind (resolve_eq (attr_qty m) q) _) as [arg|]; [|discriminate].
      destruct (create_outcome (mkW h u m) n arg check) as [u' E]. rewrite E in H. clear E.
      destruct (set_residual _ arg) as [e0 [[]|]]; [|discriminate]. destruct (eq_expr e0) as [nn|]; [|discriminate]. cbv zeta in H.
      unfold stored_name in H. rewrite Kn in H. cbn [w_mod w_heap] in H.
      set (e2 := mkEqn _ _ _ _ _ _ _) in H.
      assert (Y : w' = mkW h u' (set_attr (with_eqs m (dset (full_name n (m_name m)) e2 (m_eqs m))) a (AEqn e2)))
        by (destruct check; [destruct (forallb _ _); [|discriminate]|]; injection H as <-; reflexivity).
      assert (e2 = e).
      { rewrite Y in Ee. cbn [w_mod] in Ee. assert (Z := f_equal (dget (full_name n (m_name m))) Ee). cbn [set_attr with_attrs with_eqs m_eqs] in Z.
        rewrite !dget_dset_eq in Z. now injection Z. }
      rewrite <- H0. rewrite Y. cbn [w_heap w_mod]. exists e2. split; [reflexivity|]. split; [intros []; reflexivity|]. split; [reflexivity|]. split; reflexivity. }
    destruct X as (e' & X1 & X2 & X3 & X4 & X5). apply Fin; [reflexivity| |].
    + rewrite X3, X4. cbn [note]. now apply (objs_eqn h m).
    + apply (ledger_file acts m _ _ (PEq n) _ e Le X1 (proj1 Cl)); [exact Ee|exact Se|split; [exact En|exact X5]|exact Cn].
Qed.

Lemma cmds_tallies acts d cs : forall v v' w w', run_cmds w cs = (w', Ok tt) -> forallb clean_cmd cs = true -> account_cmds cs v = Some v' ->
  tallies acts (w_heap w) (w_mod w) d v -> tallies acts (w_heap w') (w_mod w') d v'.
Proof.
  induction cs as [|c cs IH]; intros v v' w w' H C A T; cbn [run_cmds account_cmds forallb] in *.
  - injection H as <-. injection A as <-. exact T.
  - apply andb_prop in C. destruct C as [C1 C2]. destruct (run_cmd w c) as [w1 [[]|]] eqn:E; [|discriminate].
    destruct (account_cmd c v) as [v1|] eqn:E1; [|discriminate]. exact (IH _ _ _ _ H C2 A (cmd_tallies _ _ _ _ _ _ _ E C1 E1 T)).
Qed.

(** ** Incorporating quantities *)
Definition add_of (k : qkind) := match k with KVariable => add_variable | KParameter => add_parameter | _ => add_constant end.
Lemma add_one kd h m l q h' m' : kd <> KQuantity -> add_of kd h m l true = (h', m', Ok tt) -> hget h l = Some q ->
  exists m1, h' = h ++ [reown q (m_name m) true] /\ m' = set_attr m1 (object_name (q_name q) (q_owner q)) (AQty (List.length h)) /\
    m_name m1 = m_name m /\ m_attrs m1 = m_attrs m /\ m_eqs m1 = m_eqs m /\
    reg kd m1 = dset (q_name (reown q (m_name m) true)) (List.length h) (reg kd m) /\ forall k, k <> kd -> reg k m1 = reg k m.
Proof.
  intros Nk H G. destruct kd; [congruence|..]; cbn [add_of] in H; unfold add_variable, add_parameter, add_constant in H; rewrite G in H.
  - destruct (q_exposed q); [discriminate|]. injection H as <- <-. eexists. split; [reflexivity|]. split; [reflexivity|].
    split; [reflexivity|]. split; [reflexivity|]. split; [reflexivity|]. split; [reflexivity|]. intros []; try reflexivity; congruence.
  - injection H as <- <-. eexists. split; [reflexivity|]. split; [reflexivity|].
    split; [reflexivity|]. split; [reflexivity|]. split; [reflexivity|]. split; [reflexivity|]. intros []; try reflexivity; congruence.
  - injection H as <- <-. eexists. split; [reflexivity|]. split; [reflexivity|].
    split; [reflexivity|]. split; [reflexivity|]. split; [reflexivity|]. split; [reflexivity|]. intros []; try reflexivity; congruence.
Qed.

Lemma object_full n M : M <> "" -> object_name (full_name n M) M = n.
Proof. intros N. unfold object_name. apply String.eqb_neq in N. rewrite N. apply strip_full. Qed.

Lemma add_many kd Md ls : kd <> KQuantity -> Md <> "" -> forall h m D mk h' m', NoDup (dkeys ls) ->
  (forall k l, In (k, l) ls -> exists n q, k = full_name n Md /\ clean n = true /\ hget h l = Some q /\ q_name q = k /\ q_owner q = Md) ->
  add_all (add_of kd) h m (dvals ls) true = (h', m', Ok tt) -> objs h m D mk -> clean (m_name m) = true -> names_ok h ->
  exists D' mk' t, h' = h ++ t /\ m_name m' = m_name m /\ m_eqs m' = m_eqs m /\ names_ok h' /\ objs h' m' D' mk' /\
    (forall a, match dget (full_name a Md) ls with
               | Some l => exists q, hget h l = Some q /\ dget a D' = Some (mkThing (full_name a (m_name m)) (q_value q) (q_spec q))
               | None => dget a D' = dget a D
               end) /\
    (forall x, In x mk' <-> (exists n, In (full_name n Md) (dkeys ls) /\ x = (n, n, kd)) \/ In x mk).
Proof.
  intros Nk NM. induction ls as [|[k l] ls IH]; intros h m D mk h' m' ND Hs H Ob Cm No; unfold dvals in H; cbn [map snd add_all] in H.
  - injection H as <- <-. exists D, mk, []. split; [now rewrite app_nil_r|]. split; [reflexivity|]. split; [reflexivity|]. split; [exact No|]. split; [exact Ob|]. split; [reflexivity|].
    intros x. split; [now right|]. intros [(n & [] & _)|X]. exact X.
  - destruct (add_of kd h m l true) as [[h1 m1] [[]|]] eqn:E; [|discriminate].
    destruct (Hs k l (or_introl eq_refl)) as (n & q & -> & Cn & G & Qn & Qo).
    destruct (add_one kd h m l q h1 m1 Nk E G) as (m0 & -> & -> & N0 & A0 & E0 & R0 & Ro0). rewrite Qn, Qo, (object_full n Md NM) in *.
    assert (Qr : q_name (reown q (m_name m) true) = full_name n (m_name m)) by (cbn [reown q_name]; now rewrite Qn, Qo, (object_full n Md NM)).
    rewrite Qr in R0.
    assert (Ob1 := objs_new h m m0 D mk n n kd (reown q (m_name m) true) Ob N0 A0 R0 Ro0 Qr eq_refl Cn).
    unfold dkeys in ND. cbn [map fst] in ND. apply NoDup_cons_iff in ND. destruct ND as [Hni ND']. fold (dkeys ls) in Hni, ND'.
    assert (No1 : names_ok (h ++ [reown q (m_name m) true])).
    { apply names_new; [exact No|]. rewrite Qr. exact (simple_full _ _ Cn Cm). }
    destruct (IH (h ++ [reown q (m_name m) true]) (set_attr m0 n (AQty (List.length h))) (dset n (mkThing (q_name (reown q (m_name m) true)) (q_value (reown q (m_name m) true)) (q_spec (reown q (m_name m) true))) D) ((n, n, kd) :: mk) h' m' ND') as (D' & mk' & t & Eh & Nm & Em & No' & Ob' & Dg & Mk).
    { intros k' l' Hin. destruct (Hs k' l' (or_intror Hin)) as (n' & q' & X1 & X2 & X3 & X4). exists n', q'. split; [exact X1|]. split; [exact X2|]. split; [now apply hget_app|exact X4]. }
    { exact H. } { exact Ob1. } { cbn [set_attr with_attrs m_name]. now rewrite N0. } { exact No1. }
    assert (Nm0 : m_name (set_attr m0 n (AQty (List.length h))) = m_name m) by exact N0. rewrite Nm0 in *.
    exists D', mk', (reown q (m_name m) true :: t). split; [rewrite Eh, <- app_assoc; reflexivity|]. split; [exact Nm|]. split; [rewrite Em; exact E0|]. split; [exact No'|]. split; [exact Ob'|]. split.
    + intros a. specialize (Dg a). cbn [dget]. destruct (String.eqb_spec (full_name a Md) (full_name n Md)) as [Ea|Ne].
      * apply full_inj_same in Ea. subst a. destruct (dget (full_name n Md) ls) as [l'|] eqn:El; [apply dget_in_keys in El; contradiction|].
        exists q. split; [exact G|]. rewrite Dg, dget_dset_eq. rewrite Qr. reflexivity.
      * destruct (dget (full_name a Md) ls) as [l'|] eqn:El.
        -- destruct Dg as (q' & G' & Dg). exists q'. split; [|exact Dg]. apply dget_some_in in El.
           destruct (Hs _ _ (or_intror El)) as (n' & q'' & _ & _ & G'' & _). rewrite (hget_app _ _ _ _ G'') in G'. congruence.
        -- rewrite Dg, dget_dset_neq; [reflexivity|]. intros ->. now apply Ne.
    + intros x. rewrite Mk. unfold dkeys. cbn [map fst In]. fold (dkeys ls). split.
      * intros [(n' & Hn & ->)|[<-|Hx]]; [left; exists n'; auto|left; exists n; auto|now right].
      * intros [(n' & [Hn|Hn] & ->)|Hx]; [apply full_inj_same in Hn; subst n'; right; now left|left; exists n'; auto|right; now right].
Qed.

(** ** Incorporating equations *)
Lemma says_moved names w e e2 x : says x e -> convert_symbolic names w e = Ok e2 -> says (moved (chain (sort_items names)) x) e2.
Proof.
  intros [(n & En & D) Sd] H. unfold convert_symbolic in H. rewrite En in H. binv. split.
  - eexists. split; [reflexivity|]. cbn [node_with nd_sym moved wr_value]. intros en. rewrite (den_obj _ _ _ _ Hb0). apply D.
  - cbn [eq_elementary eq_elem moved wr_sides]. destruct (wr_sides x) as [[f g]|]; cbn [option_map]; [|exact Sd]. destruct Sd as (F & a & c & Ec & D1 & D2).
    split; [exact F|]. rewrite Ec in Hb1. unfold convert_sides in Hb1. cbn [rbind] in Hb1.
    destruct (subs_obj names (nd_repr a)); [|discriminate Hb1]. cbn [rbind] in Hb1.
    destruct (subs_obj names (nd_repr c)); [|discriminate Hb1]. cbn [rbind] in Hb1.
    destruct (pick_all w _); [|discriminate Hb1]. cbn [rbind] in Hb1.
    destruct (pick_all w _); [|discriminate Hb1]. cbn [rbind] in Hb1. injection Hb1 as <-.
    eexists _, _. split; [reflexivity|]. cbn [node_with nd_sym fst snd]. split; intros en; rewrite den_try; [apply D1|apply D2].
Qed.
Lemma den_names f g e en : (forall x, f x = g x) -> den e (pull f en) = den e (pull g en).
Proof. intros E. rewrite <- !den_pull. now rewrite (rename_ext f g e E). Qed.
Lemma says_names f g x e e2 : (forall y, f y = g y) -> says x e -> says (moved f x) e2 -> says (moved g x) e2.
Proof.
  intros E [(n & En & D) Sd] [(n2 & En2 & D2) Sd2]. split.
  - exists n2. split; [exact En2|]. intros en. rewrite D2. cbn [moved wr_value]. rewrite <- !D. now apply den_names.
  - cbn [moved wr_sides] in *. destruct (wr_sides x) as [[f1 g1]|]; cbn [option_map fst snd] in *; [|exact Sd2].
    destruct Sd as (_ & a & b & _ & Da & Db). destruct Sd2 as (F & a2 & b2 & E2 & Da2 & Db2). split; [exact F|]. exists a2, b2. split; [exact E2|]. split; intros en.
    + rewrite Da2, <- !Da. now apply den_names.
    + rewrite Db2, <- !Db. now apply den_names.
Qed.

Lemma convert_names names w e e2 : convert_symbolic names w e = Ok e2 -> eq_name e2 = eq_name e /\ eq_owner e2 = eq_owner e.
Proof. unfold convert_symbolic. destruct (eq_expr e); [|discriminate]. intros H. binv. auto. Qed.
Lemma says_label x e n o : says x e -> says x (with_eowner (with_ename e n) o).
Proof. intros H. exact H. Qed.

Lemma add_many_equations acts names ob Md g from ls : Md <> "" -> (forall y, chain (sort_items names) y = g y) ->
  (forall p x y, In (p, x) from -> In (p, y) from -> x = y) ->
  forall h m D mk L m', NoDup (dkeys ls) ->
  (forall k e, In (k, e) ls -> exists n x, k = full_name n Md /\ clean n = true /\ eq_name e = k /\ eq_owner e = Md /\ says x e /\ In (PEq n, x) from) ->
  add_equations m (dvals ls) names ob true = (m', Ok tt) -> objs h m D mk -> ledger acts m L -> clean (m_name m) = true ->
  exists D' L', m_name m' = m_name m /\ objs h m' D' mk /\ ledger acts m' L' /\
    (forall a, dget a D' = if mem_str (full_name a Md) (dkeys ls) then None else dget a D) /\
    (forall p y, In (p, y) L' <-> (exists n x, p = PEq n /\ In (full_name n Md) (dkeys ls) /\ In (PEq n, x) from /\ y = moved g x) \/
                                  (In (p, y) L /\ forall n, p = PEq n -> ~ In (full_name n Md) (dkeys ls))).
Proof.
  intros NM Ch Fn. induction ls as [|[k e] ls IH]; intros h m D mk L m' ND Hs H Ob Le Cm; unfold dvals in H; cbn [map snd add_equations] in H.
  - injection H as <-. exists D, L. split; [reflexivity|]. split; [exact Ob|]. split; [exact Le|]. split; [reflexivity|].
    intros p y. split; [intros X; right; split; [exact X|intros n _ []]|]. intros [(n & x & _ & [] & _)|[X _]]. exact X.
  - destruct (add_equation m e names ob true) as [m1 [[]|]] eqn:E; [|discriminate].
    destruct (Hs k e (or_introl eq_refl)) as (n & x & -> & Cn & Qn & Qo & Sx & Hf).
    unfold add_equation in E. rewrite Qn, Qo, (object_full n Md NM) in E.
    destruct (convert_symbolic _ _ _) as [e2|] eqn:Ec; [|discriminate]. injection E as <-.
    destruct (convert_names _ _ _ _ Ec) as [En Eo]. cbn [with_eowner with_ename eq_name eq_owner] in En, Eo.
    assert (S2 : says (moved g x) e2).
    { apply (says_names (chain (sort_items names)) g x e e2 Ch Sx). apply (says_moved _ _ _ _ _ (says_label x e _ _ Sx) Ec). }
    unfold dkeys in ND. cbn [map fst] in ND. apply NoDup_cons_iff in ND. destruct ND as [Hni ND']. fold (dkeys ls) in Hni, ND'.
    set (m1 := set_attr (with_eqs m (dset (eq_name e2) e2 (m_eqs m))) n (AEqn e2)) in *.
    assert (Ob1 : objs h m1 (forget n D) mk) by (apply (objs_eqn h m); [exact Ob|reflexivity|reflexivity|intros []; reflexivity]).
    assert (Le1 : ledger acts m1 (file (PEq n) (moved g x) L)).
    { apply (ledger_file acts m m1 L (PEq n) _ e2 Le eq_refl Cm); [cbn [key_of]; unfold m1; cbn [set_attr with_attrs with_eqs m_eqs]; now rewrite En|exact S2|split; [exact En|exact Eo]|exact Cn]. }
    destruct (IH h m1 (forget n D) mk (file (PEq n) (moved g x) L) m' ND') as (D' & L' & Nm & Ob' & Le' & Dg & Lg).
    { intros k' e' Hin. exact (Hs k' e' (or_intror Hin)). } { exact H. } { exact Ob1. } { exact Le1. } { exact Cm. }
    exists D', L'. split; [exact Nm|]. split; [exact Ob'|]. split; [exact Le'|]. split.
    + intros a. rewrite Dg, dget_forget. unfold mem_str, dkeys. cbn [map fst existsb]. fold (dkeys ls). fold (mem_str (full_name a Md) (dkeys ls)).
      destruct (mem_str (full_name a Md) (dkeys ls)); [now rewrite Bool.orb_true_r|]. rewrite Bool.orb_false_r.
      destruct (String.eqb_spec n a) as [->|Ne]; [now rewrite String.eqb_refl|].
      destruct (String.eqb_spec (full_name a Md) (full_name n Md)) as [Ea|]; [apply full_inj_same in Ea; congruence|reflexivity].
    + intros p y. rewrite Lg, in_file. unfold dkeys. cbn [map fst In]. fold (dkeys ls). split.
      * intros [(n' & x' & Ep & Hn & Hx & Ey)|[[[-> ->]|[Hp Ne]] Hn]].
        -- left. exists n', x'. auto.
        -- left. exists n, x. auto.
        -- right. split; [exact Hp|]. intros n' -> [Eq|Hk]; [apply full_inj_same in Eq; subst n'; now apply Ne|exact (Hn n' eq_refl Hk)].
      * intros [(n' & x' & -> & [Hn|Hn] & Hx & ->)|[Hp Hn]].
        -- apply full_inj_same in Hn. subst n'. right. assert (x' = x) by exact (Fn _ _ _ Hx Hf). subst x'. split; [now left|].
           intros n' Ep Hk. injection Ep as <-. contradiction.
        -- left. exists n', x'. auto.
        -- right. split; [right; split; [exact Hp|]; intros ->; exact (Hn n eq_refl (or_introl eq_refl))|]. intros n' -> Hk. exact (Hn n' eq_refl (or_intror Hk)).
Qed.

(** ** Readings of the incorporated account *)
Lemma adopt_get H from names : forall D a, dget a (adopt_things H from names D) =
  if mem_str a names then match dget a from with Some t => Some (mkThing (a ++ "_" ++ H)%string (th_value t) (th_set t)) | None => dget a D end else dget a D.
Proof.
  unfold adopt_things. induction names as [|n names IH]; intros D a; cbn [fold_left]; [reflexivity|]. rewrite IH.
  unfold mem_str. cbn [existsb]. fold (mem_str a names).
  destruct (String.eqb_spec a n) as [->|Ne]; cbn [orb].
  - destruct (mem_str n names); destruct (dget n from) as [t|]; auto. now rewrite dget_dset_eq.
  - assert (X : dget a (match dget n from with Some t => dset n (mkThing (n ++ "_" ++ H)%string (th_value t) (th_set t)) D | None => D end) = dget a D)
      by (destruct (dget n from); [now apply dget_dset_neq|reflexivity]).
    rewrite X. reflexivity.
Qed.
Lemma forget_gone from D a x : In (PEq a, x) from -> dget a (forget_all from D) = None.
Proof.
  induction from as [|[p y] from IH]; intros H; [destruct H|]. cbn [forget_all fold_right fst]. fold (forget_all from D). destruct H as [E|H].
  - injection E as -> ->. rewrite dget_forget. now rewrite String.eqb_refl.
  - destruct p; try exact (IH H). rewrite dget_forget. destruct (String.eqb n a); [reflexivity|exact (IH H)].
Qed.
Lemma forget_stays from D a : (forall x, ~ In (PEq a, x) from) -> dget a (forget_all from D) = dget a D.
Proof.
  induction from as [|[p y] from IH]; intros H; [reflexivity|]. cbn [forget_all fold_right fst]. fold (forget_all from D).
  assert (IH' := IH (fun x Hx => H x (or_intror Hx))). destruct p; try exact IH'. rewrite dget_forget. destruct (String.eqb_spec n a) as [->|]; [|exact IH'].
  destruct (H y (or_introl eq_refl)).
Qed.
Lemma adopt_in g from L p y : (forall q x z, In (q, x) from -> In (q, z) from -> x = z) ->
  (In (p, y) (adopt_equations g from L) <-> (exists x, In (p, x) from /\ y = moved g x) \/ (In (p, y) L /\ forall x, ~ In (p, x) from)).
Proof.
  induction from as [|[q z] from IH]; intros Fn.
  - cbn. split; [intros H; right; auto|]. intros [(x & [] & _)|[H _]]. exact H.
  - cbn [adopt_equations fold_right fst snd]. fold (adopt_equations g from L). rewrite in_file, IH by (intros q' x' z' H1 H2; exact (Fn q' x' z' (or_intror H1) (or_intror H2))). split.
    + intros [[-> ->]|[[(x & Hx & ->)|[Hy Hn]] Ne]].
      * left. exists z. split; [now left|reflexivity].
      * left. exists x. split; [now right|reflexivity].
      * right. split; [exact Hy|]. intros x [E|Hx]; [injection E as -> _; contradiction|exact (Hn x Hx)].
    + intros [(x & [E|Hx] & ->)|[Hy Hn]].
      * injection E as -> ->. now left.
      * destruct (place_dec p q) as [->|Ne]; [left; split; [reflexivity|]; f_equal; exact (Fn q x z (or_intror Hx) (or_introl eq_refl))|]. right. split; [left; exists x; auto|exact Ne].
      * right. split; [right; split; [exact Hy|]; intros x Hx; exact (Hn x (or_intror Hx))|]. intros ->. exact (Hn z (or_introl eq_refl)).
Qed.

Lemma declared_reg m x : In x (declared m) <-> exists kd, In x (dkeys (reg kd m)).
Proof.
  unfold declared. rewrite !in_app_iff. split.
  - intros [H|[H|H]]; [now exists KVariable|now exists KParameter|now exists KConstant].
  - intros [[] H]; [destruct H|auto..].
Qed.
Lemma declared_made h m D mk x : objs h m D mk -> (In x (declared m) <-> exists n, In n (map (fun y => made_name y) mk) /\ x = full_name n (m_name m)).
Proof.
  intros [_ _ _ R M _]. rewrite declared_reg. split.
  - intros [kd H]. apply in_keys_dget in H. destruct H as [l H]. apply dget_some_in in H. destruct (R kd x l H) as (a & n & q & Hin & -> & _).
    exists n. split; [|reflexivity]. apply in_map_iff. now exists (a, n, kd).
  - intros (n & Hn & ->). apply in_map_iff in Hn. destruct Hn as ([[a n'] kd] & <- & Hin). exists kd. exact (M a n' kd Hin).
Qed.

(** ** Incorporating a model *)
Lemma names_called h d D mk H : objs h d D mk ->
  (forall n n', In n (map (fun y => made_name y) mk) -> In n' (map (fun y => made_name y) mk) -> full_name n H <> full_name n' (m_name d)) ->
  forall y, chain (sort_items (names_map d H)) y = called_in (m_name d) H (map (fun y => made_name y) mk) y.
Proof.
  intros Ob Cap y. rewrite chain_lookup.
  2: apply sort_items_nodup, names_map_nodup.
  2: { intros k v Hin Hv. rewrite sort_items_in in Hin. change (In v (dkeys (sort_items (names_map d H)))) in Hv. rewrite sort_items_keys in Hv.
       apply (in_dget_nodup _ _ _ (names_map_nodup d H)) in Hin. rewrite names_map_get in Hin.
       destruct (mem_str k (declared d)) eqn:Ek; [|discriminate]. injection Hin as <-. apply mem_str_spec in Ek. apply (declared_made _ _ _ _ _ Ob) in Ek. destruct Ek as (n & Hn & ->).
       rewrite strip_full in *. apply in_keys_dget in Hv. destruct Hv as [v Hv]. rewrite names_map_get in Hv.
       destruct (mem_str (full_name n H) (declared d)) eqn:Ev; [|discriminate]. apply mem_str_spec in Ev. apply (declared_made _ _ _ _ _ Ob) in Ev. destruct Ev as (n' & Hn' & Eq).
       destruct (Cap n n' Hn Hn' Eq). }
  rewrite dget_sort_items by apply names_map_nodup. rewrite names_map_get. unfold called_in. destruct (find _ _) as [n|] eqn:F.
  - apply find_some in F. destruct F as [Hn E]. apply String.eqb_eq in E. fold (full_name n (m_name d)) in E. subst y.
    assert (X : mem_str (full_name n (m_name d)) (declared d) = true) by (apply mem_str_spec, (declared_made _ _ _ _ _ Ob); exists n; auto).
    rewrite X, strip_full. reflexivity.
  - destruct (mem_str y (declared d)) eqn:E; [|reflexivity]. apply mem_str_spec in E. apply (declared_made _ _ _ _ _ Ob) in E. destruct E as (n & Hn & ->).
    assert (X := find_none _ _ F n Hn). cbn beta in X. change (n ++ "_" ++ m_name d)%string with (full_name n (m_name d)) in X. now rewrite String.eqb_refl in X.
Qed.

Lemma donate_spec d H : can_donate d H = true ->
  ac_name d <> "" /\ (forall x, In x (ac_made d) -> fst (fst x) = made_name x /\ in_dict (ac_things d) (made_name x) = true) /\
  (forall x y, In x (ac_made d) -> In y (ac_made d) -> made_name x = made_name y -> snd x = snd y) /\
  (forall n n', In n (made_names d) -> In n' (made_names d) -> full_name n H <> full_name n' (ac_name d)) /\
  (forall p x, In (p, x) (ac_says d) -> exists n, p = PEq n).
Proof.
  intros C. unfold can_donate in C. apply andb_prop in C. destruct C as [C C5]. apply andb_prop in C. destruct C as [C C4]. apply andb_prop in C. destruct C as [C C3].
  apply andb_prop in C. destruct C as [C1 C2]. rewrite forallb_forall in C2, C3, C4, C5.
  split; [intros E; rewrite E in C1; discriminate|]. split; [|split; [|split]].
  - intros x Hx. specialize (C2 x Hx). apply andb_prop in C2. destruct C2 as [X Y]. apply String.eqb_eq in X. auto.
  - intros x y Hx Hy E. specialize (C3 x Hx). rewrite forallb_forall in C3. specialize (C3 y Hy). rewrite E, String.eqb_refl in C3. cbn [negb orb] in C3.
    destruct (snd x), (snd y); try reflexivity; discriminate.
  - intros n n' Hn Hn' E. specialize (C4 n Hn). rewrite forallb_forall in C4. specialize (C4 n' Hn'). unfold full_name in E. rewrite E, String.eqb_refl in C4. discriminate.
  - intros p x Hp. specialize (C5 _ Hp). cbn [fst] in C5. destruct p; try discriminate. now exists n.
Qed.

Lemma inc_tallies acts h m dm f h' m' d dd v dv v' : incorporate h m dm f = (h', m', Ok tt) -> account_inc f dv v = Some v' ->
  tallies acts h m d v -> tallies acts h dm dd dv -> NoDup (dkeys (m_eqs dm)) -> names_ok h ->
  tallies acts h' m' d v' /\ names_ok h'.
Proof.
  intros H Ac [Nm Dc [Cm Cs] Ob Le] [Nd _ _ Obd Led] Ndk No.
  unfold account_inc in Ac. destruct (i_rewrite f) eqn:Rw; [|discriminate]. cbn [andb] in Ac. destruct (can_donate dv (ac_name v)) eqn:Cd; [|discriminate]. cbv zeta in Ac. injection Ac as <-.
  destruct (donate_spec _ _ Cd) as (NM & Made & Kinds & Cap & Eqs). rewrite Nd in NM, Cap. rewrite Nm in Cap.
  unfold incorporate in H. rewrite Rw in H.
  set (rg := fun kd => if takes f kd then reg kd dm else []).
  assert (Sg : forall (c : bool) add (h : heap) (m : mstate) (l : dict loc), (if c then add_all add h m (dvals l) true else (h, m, Ok tt)) = add_all add h m (dvals (if c then l else [])) true)
    by (intros []; reflexivity).
  rewrite Sg in H. change (if i_vars f then m_vars dm else []) with (rg KVariable) in H.
  destruct (add_all add_variable h m (dvals (rg KVariable)) true) as [[h1 m1] [[]|]] eqn:E1; [|discriminate].
  rewrite Sg in H. change (if i_pars f then m_pars dm else []) with (rg KParameter) in H.
  destruct (add_all add_parameter h1 m1 (dvals (rg KParameter)) true) as [[h2 m2] [[]|]] eqn:E2; [|discriminate].
  rewrite Sg in H. change (if i_cons f then m_cons dm else []) with (rg KConstant) in H.
  destruct (add_all add_constant h2 m2 (dvals (rg KConstant)) true) as [[h3 m3] [[]|]] eqn:E3; [|discriminate].
  assert (In_rg : forall kd k l, In (k, l) (rg kd) -> In (k, l) (reg kd dm)) by (intros kd k l X; unfold rg in X; destruct (takes f kd); [exact X|destruct X]).
  assert (Nd_rg : forall kd, NoDup (dkeys (rg kd))) by (intros kd; unfold rg; destruct (takes f kd); [exact (ob_nodup _ _ _ _ Obd kd)|constructor]).
  set (Md := m_name dm) in *.
  assert (Rg : forall h2 t kd, h2 = h ++ t -> forall k l, In (k, l) (rg kd) -> exists n q, k = full_name n Md /\ clean n = true /\ hget h2 l = Some q /\ q_name q = k /\ q_owner q = Md).
  { intros h0 t kd -> k l Hin. apply In_rg in Hin. destruct (ob_reg _ _ _ _ Obd kd k l Hin) as (a & n & q & _ & X2 & X3 & X4 & X5). exists n, q. split; [exact X2|]. split; [exact X3|]. split; [now apply hget_app|exact X5]. }
  destruct (add_many KVariable Md (rg KVariable) ltac:(discriminate) NM h m _ _ h1 m1 (Nd_rg KVariable) (Rg h [] KVariable (eq_sym (app_nil_r h))) E1 Ob Cm No)
    as (D1 & mk1 & t1 & Eh1 & Nm1 & Em1 & No1 & Ob1 & Dg1 & Mk1).
  destruct (add_many KParameter Md (rg KParameter) ltac:(discriminate) NM h1 m1 _ _ h2 m2 (Nd_rg KParameter) (Rg h1 t1 KParameter Eh1) E2 Ob1 ltac:(now rewrite Nm1) No1)
    as (D2 & mk2 & t2 & Eh2 & Nm2 & Em2 & No2 & Ob2 & Dg2 & Mk2).
  assert (Eh2' : h2 = h ++ (t1 ++ t2)) by (rewrite Eh2, Eh1; symmetry; apply app_assoc).
  destruct (add_many KConstant Md (rg KConstant) ltac:(discriminate) NM h2 m2 _ _ h3 m3 (Nd_rg KConstant) (Rg h2 (t1 ++ t2) KConstant Eh2') E3 Ob2 ltac:(now rewrite Nm2, Nm1) No2)
    as (D3 & mk3 & t3 & Eh3 & Nm3 & Em3 & No3 & Ob3 & Dg3 & Mk3).
  rewrite Nm1 in Nm2. rewrite Nm2 in Nm3. rewrite Nm1 in Dg2. rewrite Nm2 in Dg3.
  assert (InReg : forall n kd, In (full_name n Md) (dkeys (reg kd dm)) <-> exists a, In (a, n, kd) (ac_made dv)).
  { intros n kd. split.
    - intros Hk. apply in_keys_dget in Hk. destruct Hk as [l Hl]. apply dget_some_in in Hl. destruct (ob_reg _ _ _ _ Obd kd _ l Hl) as (a & n' & q & Hin & E & _).
      apply full_inj_same in E. subst n'. now exists a.
    - intros [a Ha]. exact (ob_made _ _ _ _ Obd a n kd Ha). }
  assert (InRg : forall n kd, In (full_name n Md) (dkeys (rg kd)) <-> exists a, In (a, n, kd) (taken f dv)).
  { intros n kd. unfold taken, rg. destruct (takes f kd) eqn:Tk.
    - rewrite InReg. split; intros [a Ha]; exists a; [apply filter_In; split; [exact Ha|exact Tk]|now apply filter_In in Ha].
    - split; [intros []|]. intros [a Ha]. apply filter_In in Ha. cbn [snd] in Ha. destruct Ha as [_ Ha]. congruence. }
  assert (D3E : forall a, dget a D3 = dget a (adopt_things (m_name m) (ac_things dv) (map (fun x => made_name x) (taken f dv)) (ac_things v))).
  { intros a. rewrite adopt_get. assert (G1 := Dg1 a). assert (G2 := Dg2 a). assert (G3 := Dg3 a). destruct (mem_str a (map (fun x => made_name x) (taken f dv))) eqn:Ea.
    - apply mem_str_spec in Ea. apply in_map_iff in Ea. destruct Ea as ([[a' n'] kd] & <- & Hin). apply filter_In in Hin. destruct Hin as [Hin Tk]. cbn [fst snd] in *.
      destruct (Made _ Hin) as [_ In1]. cbn [fst snd] in In1. unfold in_dict in In1. destruct (dget n' (ac_things dv)) as [t|] eqn:Et; [|discriminate].
      destruct (ob_held _ _ _ _ Obd (fun x Hx => proj1 (Made x Hx)) n' t Et) as (kd0 & l & Al & Gl).
      destruct (st_obj _ _ (ob_stands _ _ _ _ Obd (fun _ => 0%nat)) n' t Et) as (l' & q & Al' & Gq & _ & Qv & Qs). cbn [w_heap w_mod] in Al', Gq.
      assert (l' = l) by congruence. subst l'.
      assert (kd0 = kd) as ->. { apply dget_in_keys in Gl. apply InReg in Gl. destruct Gl as [x2 H2]. exact (Kinds _ _ H2 Hin eq_refl). }
      assert (Grg : dget (full_name n' Md) (rg kd) = Some l) by (unfold rg; rewrite Tk; exact Gl).
      assert (Other : forall k, k <> kd -> dget (full_name n' Md) (rg k) = None).
      { intros k Nk. destruct (dget (full_name n' Md) (rg k)) as [l2|] eqn:E2'; [|reflexivity]. apply dget_some_in in E2'. apply In_rg in E2'. apply (in_map fst) in E2'. cbn [fst] in E2'. fold (dkeys (reg k dm)) in E2'. apply dget_in_keys in Gl. apply InReg in E2', Gl.
        destruct E2' as [x1 H1], Gl as [x2 H2]. assert (X := Kinds _ _ H1 H2 eq_refl). cbn [snd] in X. contradiction. }
      destruct kd; [discriminate Gl|..].
      + rewrite (Other KParameter) in G2 by discriminate. rewrite (Other KConstant) in G3 by discriminate. rewrite Grg in G1.
        destruct G1 as (q1 & X1 & X2). rewrite G3, G2, X2. assert (q1 = q) by congruence. subst q1. rewrite <- Qv, <- Qs. reflexivity.
      + rewrite (Other KConstant) in G3 by discriminate. rewrite Grg in G2.
        destruct G2 as (q1 & X1 & X2). rewrite G3, X2. rewrite Eh1, (hget_app _ _ _ _ Gq) in X1. assert (q1 = q) by congruence. subst q1. rewrite <- Qv, <- Qs. reflexivity.
      + rewrite Grg in G3.
        destruct G3 as (q1 & X1 & X2). rewrite X2. rewrite Eh2', (hget_app _ _ _ _ Gq) in X1. assert (q1 = q) by congruence. subst q1. rewrite <- Qv, <- Qs. reflexivity.
    - assert (None_ : forall k, dget (full_name a Md) (rg k) = None).
      { intros k. destruct (dget (full_name a Md) (rg k)) as [l2|] eqn:E2'; [|reflexivity]. apply dget_in_keys in E2'. apply InRg in E2'. destruct E2' as [x1 H1].
        assert (X : mem_str a (map (fun x => made_name x) (taken f dv)) = true) by (apply mem_str_spec; apply in_map_iff; exists (x1, a, k); auto). congruence. }
      rewrite (None_ KVariable) in G1. rewrite (None_ KParameter) in G2. rewrite (None_ KConstant) in G3. congruence. }
  assert (Mk : forall x, In x (map (fun x => (made_name x, made_name x, snd x)) (taken f dv) ++ ac_made v) <-> In x mk3).
  { intros x. rewrite Mk3, Mk2, Mk1, in_app_iff, in_map_iff. split.
    - intros [([[a n] kd] & <- & Hin)|Hx]; [|auto]. cbn [fst snd]. assert (X : In (full_name n Md) (dkeys (rg kd))) by (apply InRg; now exists a). destruct kd; [destruct X|..].
      + right. right. left. exists n. auto.
      + right. left. exists n. auto.
      + left. exists n. auto.
    - intros [(n & Hn & ->)|[(n & Hn & ->)|[(n & Hn & ->)|Hx]]]; [..|now right]; apply InRg in Hn; destruct Hn as [a Ha]; left; eexists; (split; [|exact Ha]); reflexivity. }
  destruct (i_eqs f) eqn:Qf.
  2: { injection H as <- <-. split; [|exact No3]. constructor; cbn [ac_view ac_made ac_says restate vw_name vw_decls vw_things].
    - congruence.
    - exact Dc.
    - split; [now rewrite Nm3|exact Cs].
    - apply (objs_ext h3 m3 D3 _ mk3 _); [|exact Mk|exact Ob3]. intros a. rewrite Nm. symmetry. apply D3E.
    - apply (ledger_same acts m); [exact Nm3|congruence|exact Le]. }
  destruct (add_equations m3 (dvals (m_eqs dm)) (names_map dm (m_name m3)) (whole_objects m3) true) as [m4 r] eqn:E4. injection H as <- <- ->. rewrite Nm3 in E4.
  assert (Ch : forall y, chain (sort_items (names_map dm (m_name m))) y = called_in Md (m_name m) (made_names dv) y) by exact (names_called h dm _ _ (m_name m) Obd Cap).
  assert (Le3 : ledger acts m3 (ac_says v)) by (apply (ledger_same acts m); [exact Nm3|congruence|exact Le]).
  destruct (add_many_equations acts _ (whole_objects m3) Md _ (ac_says dv) (m_eqs dm) NM Ch (le_one _ _ _ Led) h3 m3 D3 mk3 (ac_says v) m4 Ndk)
    as (D4 & L4 & Nm4 & Ob4 & Le4 & Dg4 & Lg4).
  { intros k e Hin. apply (in_dget_nodup _ _ _ Ndk) in Hin. destruct (le_all _ _ _ Led k e Hin) as (p & x & Hp & Ek). destruct (Eqs p x Hp) as [n ->].
    destruct (le_says _ _ _ Led _ x Hp) as (e' & G & Sx & Fn & Fo). rewrite Ek in G. assert (e' = e) by congruence. subst e'.
    exists n, x. split; [symmetry; exact Ek|]. split; [exact (le_fine _ _ _ Led _ x Hp)|]. split; [rewrite Fn; exact Ek|]. split; [exact Fo|]. auto. }
  { exact E4. } { exact Ob3. } { exact Le3. } { now rewrite Nm3. }
  assert (Keys : forall n, In (full_name n Md) (dkeys (m_eqs dm)) <-> exists x, In (PEq n, x) (ac_says dv)).
  { intros n. split.
    - intros Hk. apply in_keys_dget in Hk. destruct Hk as [e He]. destruct (le_all _ _ _ Led _ e He) as (p & x & Hp & Ek). destruct (Eqs p x Hp) as [n' ->].
      cbn [key_of] in Ek. apply full_inj_same in Ek. subst n'. now exists x.
    - intros [x Hx]. destruct (le_says _ _ _ Led _ x Hx) as (e & G & _). now apply dget_in_keys in G. }
  split; [|exact No3]. constructor; cbn [ac_view ac_made ac_says restate vw_name vw_decls vw_things].
  - congruence.
  - exact Dc.
  - split; [now rewrite Nm4, Nm3|exact Cs].
  - apply (objs_ext h3 m4 D4 _ mk3 _); [|exact Mk|exact Ob4]. intros a. rewrite Dg4. rewrite Nm. destruct (mem_str (full_name a Md) (dkeys (m_eqs dm))) eqn:Ea.
    + apply mem_str_spec in Ea. apply Keys in Ea. destruct Ea as [x Hx]. exact (forget_gone _ _ _ x Hx).
    + rewrite D3E. apply forget_stays. intros x Hx.
      assert (X : mem_str (full_name a Md) (dkeys (m_eqs dm)) = true) by (apply mem_str_spec, Keys; now exists x). congruence.
  - apply (ledger_ext acts m4 L4); [|exact Le4]. intros [p y]. rewrite Nm, Nd. rewrite (adopt_in _ _ _ _ _ (le_one _ _ _ Led)), Lg4. split.
    + intros [(x & Hx & ->)|[Hy Hn]].
      * destruct (Eqs p x Hx) as [n ->]. left. exists n, x. split; [reflexivity|]. split; [apply Keys; now exists x|]. auto.
      * right. split; [exact Hy|]. intros n -> Hk. apply Keys in Hk. destruct Hk as [x Hx]. exact (Hn x Hx).
    + intros [(n & x & -> & Hk & Hx & ->)|[Hy Hn]].
      * left. exists x. auto.
      * right. split; [exact Hy|]. intros x Hx. destruct (Eqs p x Hx) as [n ->]. apply (Hn n eq_refl). apply Keys. now exists x.
Qed.

(** ** Worlds *)
Record accounted (acts : list act) (w : pworld) (vs : list account) : Prop := mkAccounted {
  an_len : List.length vs = List.length (pw_models w);
  an_all : forall i m d v, get_model w i = Some (m, d) -> nth_error vs i = Some v -> tallies acts (pw_heap w) m d v;
  an_names : names_ok (pw_heap w) }.

Lemma reg_holds kd m k l : In (k, l) (reg kd m) -> holds_object m l.
Proof. intros H. unfold holds_object. destruct kd; cbn [reg] in H; [destruct H|left; now exists k|right; left; now exists k|right; right; left; now exists k]. Qed.

Lemma tallies_kept acts h h' m d v : tallies acts h m d v -> (forall l, holds_object m l -> hget h' l = hget h l) -> (List.length h <= List.length h')%nat -> tallies acts h' m d v.
Proof.
  intros [A B C [O S N R M H] E] K L. constructor; auto. constructor; auto.
  - exact (oa_heap _ _ _ L O).
  - intros u. exact (stands_world _ _ u u _ _ K (S u)).
  - intros kd k l Hin. destruct (R kd k l Hin) as (a & n & q & X1 & X2 & X3 & X4 & X5). exists a, n, q. rewrite (K l (reg_holds _ _ _ _ Hin)). auto.
Qed.
Lemma accounted_more acts b w vs : accounted acts w vs -> accounted (acts ++ b) w vs.
Proof. intros [L A N]. constructor; auto. intros i m d v G Hv. apply tallies_more. exact (A i m d v G Hv). Qed.

Lemma at_model_spec g i vs vs' : at_model g i vs = Some vs' -> exists v v', nth_error vs i = Some v /\ g v = Some v' /\ List.length vs' = List.length vs /\
  nth_error vs' i = Some v' /\ forall j, j <> i -> nth_error vs' j = nth_error vs j.
Proof.
  unfold at_model. destruct (nth_error vs i) as [v|] eqn:E; [|discriminate]. destruct (g v) as [v'|] eqn:G; [|discriminate]. intros H. injection H as <-.
  exists v, v'. split; [reflexivity|]. split; [exact G|]. split; [apply change_length|]. split; [|intros j Hj; now apply change_neq].
  assert (L : (i < List.length (change_at (fun _ => v') i vs))%nat) by (rewrite change_length; apply nth_error_Some; congruence).
  apply nth_error_Some in L. destruct (nth_error (change_at (fun _ => v') i vs) i) as [x|] eqn:Ex; [|congruence]. destruct (change_eq _ _ _ _ Ex) as (v0 & _ & ->). reflexivity.
Qed.

Lemma on_model_accounted {A} acts w i (f : decls -> mworld -> mworld * res A) w2 r vs vs' g : apart w -> accounted acts w vs ->
  (forall m d w' r, get_model w i = Some (m, d) -> f d (mkW (pw_heap w) (pw_uids w) m) = (w', r) -> ot (pw_heap w) m (w_heap w') (w_mod w')) ->
  (forall m d w' v v', get_model w i = Some (m, d) -> f d (mkW (pw_heap w) (pw_uids w) m) = (w', Ok r) -> tallies acts (pw_heap w) m d v -> names_ok (pw_heap w) ->
     g v = Some v' -> tallies acts (w_heap w') (w_mod w') d v' /\ names_ok (w_heap w')) ->
  on_model w i f = (w2, Ok r) -> at_model g i vs = Some vs' -> accounted acts w2 vs' /\ apart w2.
Proof.
  intros Ap [V1 V2 Vn] HO HF H At. assert (On := on_model_only w i f w2 (Ok r) Ap HO H). split; [|exact (on_apart _ _ _ On)].
  apply at_model_spec in At. destruct At as (v & v' & Hv & Gv & Lv & Hv' & Ho).
  apply on_model_spec in H. destruct H as [(N & -> & X)|(m & d & w' & G & F & Hh & G2 & Go & L)]; [discriminate X|].
  destruct (HF m d w' v v' G F (V2 i m d v G Hv) Vn Gv) as [T N']. constructor; [congruence| |now rewrite Hh].
  intros j mj dj vj Gj Hj. destruct (Nat.eq_dec j i) as [->|Hne].
  - assert (X : Some (mj, dj) = Some (w_mod w', d)) by congruence. injection X as -> ->. assert (vj = v') by congruence. subst vj. rewrite Hh. exact T.
  - rewrite Ho in Hj by exact Hne. rewrite Go in Gj by exact Hne.
    destruct (on_kept _ _ _ On j mj dj Gj (fun E => Hne (eq_sym E))) as [_ K]. exact (tallies_kept _ _ _ _ _ _ (V2 j mj dj vj Gj Hj) K (on_len _ _ _ On)).
Qed.

Lemma call_accounted acts w i w2 vs vs' : apart w -> accounted acts w vs -> on_model w i model_call = (w2, Ok tt) -> at_model account_call i vs = Some vs' ->
  accounted acts w2 vs' /\ apart w2.
Proof.
  intros Ap V. apply on_model_accounted; [exact Ap|exact V| |].
  - intros m d w' r G F. exact (cmds_ot _ _ _ _ F).
  - intros m d w' v v' G F T N Ac. destruct (ta_clean _ _ _ _ _ T) as [C1 C2]. split.
    + unfold account_call in Ac. rewrite (ta_decls _ _ _ _ _ T) in Ac. exact (cmds_tallies acts d (script d) v v' (mkW (pw_heap w) (pw_uids w) m) w' F C2 Ac T).
    + exact (proj1 (cmds_arrows (script d) (mkW (pw_heap w) (pw_uids w) m) w' (Ok tt) F C1 C2 N)).
Qed.
Lemma reload_accounted acts is : forall w w' vs vs', apart w -> accounted acts w vs -> reload w is = (w', Ok tt) -> account_calls is vs = Some vs' -> accounted acts w' vs'.
Proof.
  induction is as [|i is IH]; intros w w' vs vs' Ap V H Ac; cbn [reload account_calls] in *; [injection H as <-; injection Ac as <-; exact V|].
  destruct (on_model w i model_call) as [w1 [[]|x]] eqn:E; [|discriminate]. destruct (at_model account_call i vs) as [vs1|] eqn:Ea; [|discriminate].
  destruct (call_accounted _ _ _ _ _ _ Ap V E Ea) as [V1 Ap1]. exact (IH _ _ _ _ Ap1 V1 H Ac).
Qed.

(** Connections change the equations of one model. *)
Definition joined_at (a : act) : option nat := match a with AConn _ j _ _ _ | AConnN _ j _ _ => Some j | _ => None end.
Lemma join_frame s a s' j : joined_at a = Some j -> do_act s a = (s', Ok tt) ->
  pw_heap (fst s') = pw_heap (fst s) /\ List.length (pw_models (fst s')) = List.length (pw_models (fst s)) /\
  forall i m' d, get_model (fst s') i = Some (m', d) -> exists m, get_model (fst s) i = Some (m, d) /\ ((i <> j /\ m' = m) \/ (i = j /\ m' = with_eqs m (m_eqs m'))).
Proof.
  intros J H. destruct s as [w p].
  assert (Fin : forall w0 w1 (f : decls -> mworld -> mworld * res eqn) r, pw_heap w0 = pw_heap w -> pw_models w0 = pw_models w -> on_model w0 j f = (w1, r) ->
     (forall d wd wd', f d wd = (wd', r) -> w_heap wd' = w_heap wd /\ w_mod wd' = with_eqs (w_mod wd) (m_eqs (w_mod wd'))) ->
     pw_heap w1 = pw_heap w /\ List.length (pw_models w1) = List.length (pw_models w) /\
     forall i m' d, get_model w1 i = Some (m', d) -> exists m, get_model w i = Some (m, d) /\ ((i <> j /\ m' = m) \/ (i = j /\ m' = with_eqs m (m_eqs m')))).
  { intros w0 w1 f r Hh Hm E Hf. assert (Gw : forall i, get_model w0 i = get_model w i) by (intros i; unfold get_model; now rewrite Hm).
    apply on_model_spec in E. destruct E as [(N & -> & _)|(m & d & wd & G & F & Hh2 & G2 & Go & L)].
    - split; [exact Hh|]. split; [now rewrite Hm|]. intros i m' d G. exists m'. rewrite <- Gw. split; [exact G|]. left. split; [intros ->; congruence|reflexivity].
    - destruct (Hf _ _ _ F) as [F1 F2]. cbn [w_heap w_mod] in F1, F2. split; [congruence|]. split; [now rewrite L, Hm|].
      intros i m' d' Gi. destruct (Nat.eq_dec i j) as [->|Hne].
      + assert (X : Some (m', d') = Some (w_mod wd, d)) by congruence. injection X as -> ->. exists m. rewrite <- Gw. auto.
      + rewrite Go in Gi by exact Hne. exists m'. rewrite <- Gw. auto. }
  destruct a as [n dd|k c|k|k i f|k|m1 m2 outs ins e|m1 m2 out inp|names|c|]; try discriminate J; injection J as ->; cbn [do_act fst] in *.
  - destruct (match e with None => _ | Some _ => _ end) as [x|]; [|discriminate].
    unfold connect_vars in H. destruct (get_model w j) as [[s2 d2]|]; [|discriminate].
    destruct (match m1 with CMName _ => _ | CMModel i => _ end); [|discriminate].
    destruct (forallb _ (cv_list ins) && forallb _ (cv_list outs)).
    2: { destruct ins, outs; discriminate. }
    destruct (match x with Some _ => _ | None => _ end) as [ar|]; [|discriminate].
    destruct (rbind (qty_names (pw_heap w) (cv_list outs)) _) as [[o i']|]; [|discriminate].
    destruct (on_model w j _) as [w1 r1] eqn:E. destruct r1 as [e1|]; [|discriminate]. injection H as <-. cbn [fst].
    apply (Fin w w1 _ _ eq_refl eq_refl E). intros d wd wd' F. unfold model_connection in F. destruct (_ && _); [|discriminate].
    destruct (rbind _ _); [|discriminate]. destruct (connection_init _ _ _) as [? []]; [|discriminate]. injection F as <- _. split; reflexivity.
  - destruct (rbind (build (pw_heap w) out) _) as [[o i]|]; [|discriminate].
    unfold connect_nodes in H. destruct (get_model w j) as [[s2 d2]|]; [|discriminate].
    destruct (match m1 with CMName _ => _ | CMModel _ => _ end) as [pu rr].
    destruct rr as [n1|]; [|discriminate].
    destruct (node_sub i (ONode o)) as [dn|]; [|discriminate].
    destruct (on_model _ j _) as [w1 r1] eqn:E. destruct r1 as [e1|]; [|discriminate]. injection H as <-. cbn [fst].
    apply (Fin (mkPW (pw_heap w) (pw_uids w) pu (pw_models w)) w1 _ _ eq_refl eq_refl E). intros d wd wd' F.
    match type of F with create_equation ?a ?b (Some ?c) ?f = _ => destruct (create_outcome a b c f) as [u' Ec]; rewrite Ec in F; clear Ec end.
    cbn [set_residual finish_residual with_expr eq_expr] in F. cbv zeta in F. injection F as <- _. split; reflexivity.
Qed.

(** ** Every action *)
Lemma accounted_tidy acts w vs : accounted acts w vs -> tidy_world w.
Proof.
  intros [L A N]. split; [exact N|]. intros i m d G.
  assert (Lt : (i < List.length vs)%nat) by (rewrite L; apply nth_error_Some; unfold get_model in G; congruence).
  apply nth_error_Some in Lt. destruct (nth_error vs i) as [v|] eqn:E; [|congruence]. exact (ta_clean _ _ _ _ _ (A i m d v G E)).
Qed.

Lemma new_tallies acts h n d : clean n = true -> forallb clean_cmd (script d) = true -> tallies acts h (new_model n) d (mkAccount (mkView n d []) [] []).
Proof.
  intros C1 C2. constructor; cbn [ac_view ac_made ac_says vw_name vw_decls vw_things]; [reflexivity|reflexivity|now split| |].
  - constructor.
    + split; intros ? ? ?; discriminate.
    + intros u. apply stands_nil.
    + intros []; constructor.
    + intros [] k l [].
    + intros a x kd [].
    + intros _ a t H. discriminate.
  - constructor; [intros p x []|intros k e H; discriminate|intros p x []|intros p x y []].
Qed.

Lemma join_accounted past a s' j p x vs vs' : all_ok start_session past -> distinct_models past -> plain_origins (past ++ [a]) -> neat_act a = true ->
  accounted past (fst (run_acts start_session past)) vs -> joined_at a = Some j -> do_act (run_acts start_session past) a = (s', Ok tt) ->
  bring past a = Some (j, p, x) -> at_model (add_equation_to p x) j vs = Some vs' -> accounted (past ++ [a]) (fst s') vs'.
Proof.
  intros O D Pl Ne Ac J E B At. assert (T := accounted_tidy _ _ _ Ac). destruct (join_frame _ _ _ _ J E) as (Hh & Lm & Fr).
  assert (Ta : tidy_act a = true) by (destruct a; try discriminate J; exact Ne).
  destruct (act_effect past a s' O D T Ta) with (2 := E) as [_ Ef]; [intros i at0 n q c v ->; discriminate J|].
  apply at_model_spec in At. destruct At as (v & v' & Hv & Gv & Lv & Hv' & Ho). unfold add_equation_to in Gv. injection Gv as <-.
  destruct (accounted_more _ [a] _ _ Ac) as [L A N]. constructor.
  - now rewrite Lv, Lm.
  - intros i m' d v0 G Hv0. destruct (Fr i m' d G) as (m & G0 & [[Ni ->]|[-> Em]]).
    + rewrite Ho in Hv0 by exact Ni. rewrite Hh. exact (A i m d v0 G0 Hv0).
    + assert (X : v0 = mkAccount (ac_view v) (ac_made v) (file p x (ac_says v))) by congruence. subst v0. clear Hv0.
      destruct (A j m d v G0 Hv) as [T1 T2 T3 T4 T5]. assert (Nm : m_name m' = m_name m) by (rewrite Em; reflexivity).
      constructor; cbn [ac_view ac_made ac_says]; [congruence|exact T2|now rewrite Nm| |].
      * rewrite Hh. apply (objs_same _ m m'); [exact Nm|rewrite Em; reflexivity|intros []; rewrite Em; reflexivity|exact T4].
      * destruct (Ef j m' d G) as [(Gn & _)|(m1 & G1 & _ & [(p' & x' & e & Bp & Ee & Se & Q)|[Nb _]])]; [congruence| |destruct (Nb p x B)].
        assert (X : m1 = m) by congruence. subst m1. assert (X : p' = p) by congruence. subst p'. assert (X : x' = x) by congruence. subst x'.
        apply (ledger_file (past ++ [a]) m m' (ac_says v) p x e T5 Nm (proj1 T3)).
        -- rewrite key_more; [exact Ee|]. intros t Ht. rewrite (place_time _ _ _ _ _ t Bp Ht). apply le_n.
        -- exact Se.
        -- destruct a as [n dd|k c|k|k i0 f|k|m1 m2 outs ins eq|m1 m2 out inp|names|c|]; try discriminate J; cbn [bring] in B.
           ++ assert (X : p = PVars (var_names (pw_heap (fst (run_acts start_session past))) (cv_list outs)) (var_names (pw_heap (fst (run_acts start_session past))) (cv_list ins))) by congruence.
              rewrite X. exact I.
           ++ assert (X : p = place_from past m1) by congruence. rewrite X. unfold place_from. destruct (origin_of past m1) as [[]|]; exact I.
        -- exact (new_fine _ _ _ _ _ _ Pl E Bp Q).
  - rewrite Hh. exact N.
Qed.

Lemma act_accounted past a s' vs vs' : all_ok start_session past -> distinct_models past -> plain_origins (past ++ [a]) -> neat_act a = true ->
  accounted past (fst (run_acts start_session past)) vs -> do_act (run_acts start_session past) a = (s', Ok tt) -> account_act past vs a = Some vs' ->
  accounted (past ++ [a]) (fst s') vs'.
Proof.
  intros O D Pl Ne Ac E Aa. assert (Ap := run_apart past). assert (Gd := run_good past start_session start_good). assert (Ac1 := accounted_more _ [a] _ _ Ac).
  assert (Mb : dvals (pr_models (snd (run_acts start_session past))) = firsts (adds past)) by (rewrite (members _ D); unfold added; now rewrite (added_adds _ O)).
  destruct a as [n dd|k c|k|k j f|k|m1 m2 outs ins e|m1 m2 out inp|names|c|].
  6: { cbn [account_act] in Aa. destruct (bring past (AConn m1 m2 outs ins e)) as [[[j p] x]|] eqn:B; [|discriminate].
       assert (m2 = j) by (cbn [bring] in B; congruence). subst m2. exact (join_accounted _ _ _ j p x _ _ O D Pl Ne Ac eq_refl E B Aa). }
  6: { cbn [account_act] in Aa. destruct (bring past (AConnN m1 m2 out inp)) as [[[j p] x]|] eqn:B; [|discriminate].
       assert (m2 = j) by (cbn [bring] in B; congruence). subst m2. exact (join_accounted _ _ _ j p x _ _ O D Pl Ne Ac eq_refl E B Aa). }
  all: destruct (run_acts start_session past) as [w p] eqn:Es; cbn [fst snd] in *; cbn [do_act account_act] in *.
  - injection E as <-. injection Aa as <-. cbn [fst]. cbn [neat_act clean_act] in Ne. apply andb_prop in Ne. destruct Ne as [C1 C2]. destruct Ac1 as [V1 V2 Vn].
    constructor; cbn [pw_models pw_heap]; [now rewrite !app_length, V1| |exact Vn].
    intros i m d v G Hv. unfold get_model in G. cbn [pw_models] in G. destruct (Nat.lt_ge_cases i (List.length (pw_models w))) as [L|L].
    + rewrite nth_error_app1 in G by exact L. rewrite nth_error_app1 in Hv by (rewrite V1; exact L). exact (V2 i m d v G Hv).
    + rewrite nth_error_app2 in G by exact L. rewrite nth_error_app2 in Hv by (rewrite V1; exact L). rewrite V1 in Hv.
      destruct (i - _)%nat as [|z]; [|destruct z; discriminate]. injection G as <- <-. injection Hv as <-. now apply new_tallies.
  - destruct (on_model w k _) as [w1 r1] eqn:E1. injection E as <- ->. cbn [fst].
    apply (on_model_accounted (past ++ [AStmt k c]) w k _ w1 tt vs vs' (account_cmd c) Ap Ac1) in E1; [exact (proj1 E1)| | |exact Aa].
    + intros m d w2 r2 _ F. exact (cmd_ot _ _ _ _ F).
    + intros m d w' v v' G F T N Av. split; [exact (cmd_tallies _ d v v' (mkW (pw_heap w) (pw_uids w) m) c w' F Ne Av T)|].
      exact (proj1 (cmd_arrows (mkW (pw_heap w) (pw_uids w) m) c w' (Ok tt) F (proj1 (ta_clean _ _ _ _ _ T)) Ne N)).
  - destruct (on_model w k _) as [w1 r1] eqn:E1. injection E as <- ->. exact (proj1 (call_accounted _ _ _ _ _ _ Ap Ac1 E1 Aa)).
  - destruct (nth_error vs j) as [dv|] eqn:Ed; [|discriminate].
    destruct (get_model w j) as [[dm ddm]|] eqn:Gj; [|discriminate].
    destruct (on_model w k _) as [w1 r1] eqn:E1. injection E as <- ->. cbn [fst].
    apply (on_model_accounted (past ++ [AInc k j f]) w k _ w1 tt vs vs' (account_inc f dv) Ap Ac1) in E1; [exact (proj1 E1)| | |exact Aa].
    + intros m d w2 r2 _ F. cbn [w_heap w_mod w_uids] in F. destruct (incorporate (pw_heap w) m dm f) as [[h' m'] r'] eqn:I.
      injection F as <- _. exact (incorporate_ot _ _ _ _ _ _ _ I).
    + intros m d w' v v' G F T N Av. cbn [w_heap w_mod w_uids] in F. destruct (incorporate (pw_heap w) m dm f) as [[h' m'] r'] eqn:I.
      injection F as <- ->. cbn [w_heap w_mod]. destruct (g_ok _ Gd) as [W _]. destruct (W j dm ddm Gj) as (_ & _ & _ & Nd & _).
      exact (inc_tallies _ _ _ _ _ _ _ _ _ _ _ _ I Av T (an_all _ _ _ Ac1 j dm ddm dv Gj Ed) Nd N).
  - destruct (get_model w k); [|discriminate]. injection E as <-. injection Aa as <-. exact Ac1.
  - injection E as <-. injection Aa as <-. exact Ac1.
  - injection E as <-. injection Aa as <-. exact Ac1.
  - unfold presolve in E. destruct (reload w (dvals (pr_models p))) as [w1 [[]|]] eqn:E1; [|discriminate].
    destruct (build_block w1 p); [|discriminate]. destruct (block_call _) as [b' r']. injection E as <- _. cbn [fst].
    rewrite Mb in E1. exact (reload_accounted _ _ _ _ _ _ Ap Ac1 E1 Aa).
Qed.

Lemma account_snoc l a : forall past vs, account_acts past vs (l ++ [a]) =
  match account_acts past vs l with Some vs1 => account_act (past ++ l) vs1 a | None => None end.
Proof.
  induction l as [|b l IH]; intros past vs; cbn [app account_acts].
  - rewrite app_nil_r. destruct (account_act past vs a); reflexivity.
  - destruct (account_act past vs b) as [vs1|]; [|reflexivity]. rewrite IH, <- app_assoc. reflexivity.
Qed.
Lemma origins_before acts a : plain_origins (acts ++ [a]) -> plain_origins acts.
Proof.
  intros Pl m j out inp s Hin Ho. apply (Pl m j out inp s); [apply in_or_app; now left|]. destruct m as [i|t]; cbn [origin_of] in *; [|exact Ho].
  destruct (nth_error (created acts) i) as [md|] eqn:Ec; [|discriminate Ho]. now rewrite (created_prefix _ _ _ _ Ec).
Qed.

Lemma run_accounted acts : forall vs, all_ok start_session acts -> distinct_models acts -> forallb neat_act acts = true -> plain_origins acts ->
  accounts acts = Some vs -> accounted acts (fst (run_acts start_session acts)) vs.
Proof.
  unfold accounts. induction acts as [|a acts IH] using rev_ind; intros vs O D P Pl Ac.
  - injection Ac as <-. constructor; [reflexivity| |].
    + intros i m d v H. unfold get_model in H; destruct i; discriminate.
    + intros l q H. unfold hget in H; destruct l; discriminate.
  - apply all_ok_app in O. destruct O as [O [Oa _]]. apply distinct_before in D.
    rewrite forallb_app in P. apply andb_prop in P. destruct P as [P1 P2]. cbn [forallb] in P2. rewrite Bool.andb_true_r in P2.
    rewrite account_snoc in Ac. destruct (account_acts [] [] acts) as [vs1|] eqn:E1; [|discriminate]. cbn [app] in Ac.
    rewrite run_acts_app. cbn [run_acts]. destruct (do_act (run_acts start_session acts) a) as [s' r] eqn:E. cbn [fst snd] in *. subst r.
    exact (act_accounted acts a s' vs1 vs O D Pl P2 (IH vs1 O D P1 (origins_before _ _ Pl) eq_refl) E Ac).
Qed.

(** ** The resolved problem *)
Lemma resolved_accounted acts s b vs : resolved acts s b -> all_ok start_session acts -> distinct_models acts -> forallb neat_act acts = true -> plain_origins acts ->
  accounts (acts ++ [AResolve]) = Some vs -> accounted (acts ++ [AResolve]) (fst s) vs.
Proof.
  intros R O D P Pl Ac. unfold accounts in Ac. rewrite account_snoc in Ac. destruct (account_acts [] [] acts) as [vs1|] eqn:E1; [|discriminate]. cbn [app] in Ac.
  apply (act_accounted acts AResolve s vs1 vs O D); [|reflexivity|exact (run_accounted _ _ O D P Pl E1)|exact (proj1 R)|exact Ac].
  intros m j out inp x Hin Ho. apply in_app_or in Hin. destruct Hin as [Hin|[Hin|[]]]; [|discriminate Hin]. apply (Pl m j out inp x Hin).
  destruct m as [i|t]; cbn [origin_of] in *; [|exact Ho]. rewrite created_app in Ho. cbn [created flat_map] in Ho. now rewrite app_nil_r in Ho.
Qed.

Lemma block_composed acts s b vs : resolved acts s b -> all_ok start_session acts -> distinct_models acts -> forallb neat_act acts = true -> plain_origins acts ->
  accounts (acts ++ [AResolve]) = Some vs ->
  (forall x, composed_says acts vs x -> exists e, In e (b_eqs b) /\ says x e) /\
  (forall e, In e (b_eqs b) -> exists x, composed_says acts vs x /\ says x e).
Proof.
  intros R O D P Pl Ac. assert (An := resolved_accounted _ _ _ _ R O D P Pl Ac). split.
  - intros x (i & v & p & Hi & Hv & Hx).
    assert (L : (i < List.length (pw_models (fst s)))%nat) by (rewrite <- (an_len _ _ _ An); apply nth_error_Some; congruence).
    apply nth_error_Some in L. fold (get_model (fst s) i) in L. destruct (get_model (fst s) i) as [[m d]|] eqn:G; [|congruence].
    destruct (le_says _ _ _ (ta_ledger _ _ _ _ _ (an_all _ _ _ An i m d v G Hv)) p x Hx) as (e & He & Se & _).
    exists e. split; [|exact Se]. exact (member_equations _ _ _ _ _ _ R (member_added _ _ _ _ R D Hi) G _ _ He).
  - intros e He. destruct (block_equations _ _ _ R) as (_ & E & _). rewrite E in He. unfold equations_of in He. apply in_flat_map in He.
    destruct He as (i & Hi & He). unfold model_of in He. destruct (get_model (fst s) i) as [[m d]|] eqn:G; [|destruct He]. cbn [option_map fst] in He.
    apply in_map_iff in He. destruct He as ([k e'] & <- & Hin). cbn [snd]. assert (Ad := added_member _ _ _ _ R D Hi).
    destruct (g_ok _ (resolved_good _ _ _ R)) as [W _]. destruct (W i m d G) as (_ & _ & _ & Nd & _). assert (Hk := in_dget_nodup _ _ _ Nd Hin).
    assert (L : (i < List.length vs)%nat) by (rewrite (an_len _ _ _ An); apply nth_error_Some; unfold get_model in G; congruence).
    apply nth_error_Some in L. destruct (nth_error vs i) as [v|] eqn:Hv; [|congruence].
    assert (Le := ta_ledger _ _ _ _ _ (an_all _ _ _ An i m d v G Hv)). destruct (le_all _ _ _ Le k e' Hk) as (p & x & Hp & Ek).
    destruct (le_says _ _ _ Le p x Hp) as (e & He & Se & _). exists x. split; [exists i, v, p; auto|]. assert (e = e') by congruence. now subst e.
Qed.

Lemma system_composed acts s b vs en : resolved acts s b -> all_ok start_session acts -> distinct_models acts -> forallb neat_act acts = true -> plain_origins acts ->
  accounts (acts ++ [AResolve]) = Some vs -> (solved en b <-> forall x, composed_says acts vs x -> asks x en).
Proof.
  intros R O D P Pl Ac. rewrite (system_exact _ _ _ en R). destruct (block_composed _ _ _ _ R O D P Pl Ac) as [B1 B2]. split.
  - intros H x Hx. destruct (B1 x Hx) as (e & He & Se). exact (proj1 (asks_says _ _ en Se) (H e He)).
  - intros H e He. destruct (B2 e He) as (x & Hx & Se). exact (proj2 (asks_says _ _ en Se) (H x Hx)).
Qed.
Lemma answer_composed acts s b vs eng out x : resolved acts s b -> all_ok start_session acts -> distinct_models acts -> forallb neat_act acts = true ->
  plain_origins acts -> accounts (acts ++ [AResolve]) = Some vs -> honest eng -> answer eng b out -> composed_says acts vs x -> asks x (bind_env out).
Proof.
  intros R O D P Pl Ac Hh A Hx. assert (S := answer_solves _ _ _ _ _ R Hh A). exact (proj1 (system_composed _ _ _ _ _ R O D P Pl Ac) S x Hx).
Qed.
