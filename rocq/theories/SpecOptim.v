(** What users expect of optimisation studies. *)
From Verif Require Export Base Num Node SolverModel SimModel OptimModel.
From Verif Require Import SpecUnits.
From Coq Require Import Reals.
Notation num := Verif.Num.num.

(** ** Sense *)

(** The first entry of a fitness vector is a finite number of value [r]. *)
Definition fit (f : list num) (r : R) : Prop := exists x rest, f = x :: rest /\ nvalue x r.

(** [x] is a best point among [pts] for the given sense. *)
Definition best_of (maximise : bool) (g : list num -> res (list num)) (pts : list (list num)) (x : list num) : Prop :=
  In x pts /\
  forall y fx fy rx ry, In y pts -> g x = Ok fx -> g y = Ok fy -> fit fx rx -> fit fy ry ->
    if maximise then (ry <= rx)%R else (rx <= ry)%R.

(** Two studies that differ at most in their senses. *)
Definition same_but_sense (s t : study) : Prop :=
  (exists m, st_problem t = op_set_max (st_problem s) m) /\ st_simconf t = st_simconf s /\ st_params t = st_params s /\
  st_constraints t = st_constraints s /\ st_conf t = st_conf s /\ st_mech t = st_mech s /\ st_best t = st_best s.

(** ** Options *)

(** The mechanisms there are, and where pygmo's documentation has each option of
    a mechanism: [role m k] is the keyword of the algorithm the option [k] is
    meant for. *)
Definition known (m : string) : Prop := In m ["ga"; "sade"; "de"; "pso"].
Inductive role : string -> string -> algo -> string -> Prop :=
| r_ga k w : In (k, w) [("number_of_generations", "gen"); ("crossover_rate", "cr"); ("mutation_rate", "m");
    ("selection_param", "param_s"); ("crossover_type", "crossover"); ("mutation_type", "mutation");
    ("selection_type", "selection")] -> role "ga" k SGA w
| r_sade k w : In (k, w) [("number_of_generations", "gen"); ("ftol_de", "ftol"); ("xtol_de", "xtol")] -> role "sade" k DE1220 w
| r_de k w : In (k, w) [("number_of_generations", "gen"); ("scale_factor", "F"); ("crossover_rate", "CR");
    ("variant_de", "variant"); ("ftol_de", "ftol"); ("xtol_de", "xtol")] -> role "de" k DE w
| r_pso k w : In (k, w) [("number_of_generations", "gen"); ("omega_pso", "omega"); ("eta1_pso", "eta1"); ("eta2_pso", "eta2");
    ("max_v_pso", "max_vel"); ("variant_pso", "variant")] -> role "pso" k PSO w.
(** Options of a mechanism that pygmo also offers, as [neighb_type] and
    [neighb_param] of its particle swarm. *)
Inductive offered : string -> string -> algo -> string -> Prop :=
| o_role m k a w : role m k a w -> offered m k a w
| o_type : offered "pso" "neighborhood_type_pso" PSO "neighb_type"
| o_param : offered "pso" "neighborhood_param_pso" PSO "neighb_param".

(** ** The box that is searched *)

(** [x] lies between [lo] and [hi]. *)
Definition within_limits (lo hi x : num) : Prop :=
  exists a b c, nvalue lo a /\ nvalue hi b /\ nvalue x c /\ (a <= c <= b)%R.

(** The interval the constraints give for the [i]-th of [params]: by name in a
    dictionary, or from a pair of vectors of lower and upper limits. *)
Definition param_name (x : oparam) : option string :=
  match x with QParam n | SParam n => Some n | XParam => None end.
Inductive interval (params : list oparam) : cval -> nat -> num -> num -> Prop :=
| i_dict d i x n lo hi : nth_error params i = Some x -> param_name x = Some n ->
    dget n d = Some (VList [VNum lo; VNum hi]) -> interval params (VDict d) i lo hi
| i_pair l h i lo hi : nth_error l i = Some (VNum lo) -> nth_error h i = Some (VNum hi) ->
    interval params (VList [VList l; VList h]) i lo hi
| i_one lo hi : interval params (VList [VNum lo; VNum hi]) 0 lo hi.

(** An evolution that keeps to its box. *)
Definition keeps_box (evolve : evolution) : Prop :=
  forall m g lo hi n x f, evolve m g (lo, hi) n = Ok (x, f) ->
    List.length x = List.length lo /\
    forall i a b c, nth_error lo i = Some a -> nth_error hi i = Some b -> nth_error x i = Some c -> within_limits a b c.

(** ** Results *)

(** The box [lo, hi] that constraints [c] describe: a pair of vectors of numbers
    of one length, or a pair of numbers; no lower limit above its upper limit. *)
Definition box_of (c : cval) (lo hi : list num) : Prop :=
  (c = VList [VList (map VNum lo); VList (map VNum hi)] \/
   exists l h, c = VList [VNum l; VNum h] /\ lo = [l] /\ hi = [h]) /\
  lo <> [] /\ List.length lo = List.length hi /\
  forall i a b, nth_error lo i = Some a -> nth_error hi i = Some b -> ordered a b = true.

(** In state [s] the action [a] is a run whose evolution ends with the champion
    [b]: the evolution worked with the mechanism of the study, the objective of
    its problem, the box of its constraints and its number of individuals. *)
Inductive evolved (s : study) : oaction -> list num * list num -> Prop :=
| ev_run (evolve : evolution) after m n lo hi b :
    op_ready (st_problem s) = true -> st_mech s = Some m -> ~ In XParam (st_params s) -> dget "number_of_individuals" (st_conf s) = Some n ->
    box_of (st_constraints s) lo hi -> evolve m (op_fitness (st_problem s)) (lo, hi) n = Ok b ->
    evolved s (ORun evolve after) b.

(** The latest champion of a history. *)
Definition last_champion (s : study) (l : list oaction) (b : list num * list num) : Prop :=
  exists l1 a l2, l = (l1 ++ a :: l2)%list /\ evolved (ohist s l1) a b /\
    forall l3 a' l4 b', l2 = (l3 ++ a' :: l4)%list -> ~ evolved (ohist s (l1 ++ a :: l3)%list) a' b'.

(** ** Settings *)

(** What a setting is when the user says nothing. *)
Definition usual (k : string) : option cval :=
  let is l := existsb (String.eqb k) l in
  if is ["number_of_individuals"] then Some (VNum (PInt 100))
  else if is ["number_of_generations"] then Some (VNum (PInt 600))
  else if is ["crossover_rate"] then Some (VNum (fdec 6 1))
  else if is ["mutation_rate"] then Some (VNum (fdec 4 2))
  else if is ["elitism"] then Some (VNum (PInt 1))
  else if is ["crossover_type"] then Some (VStr "exponential")
  else if is ["mutation_type"] then Some (VStr "gaussian")
  else if is ["selection_type"] then Some (VStr "tournament")
  else if is ["selection_param"; "neighborhood_param_pso"] then Some (VNum (PInt 4))
  else if is ["scale_factor"; "max_v_pso"] then Some (VNum (fdec 5 1))
  else if is ["variant_de"] then Some (VNum (PInt 10))
  else if is ["ftol_de"; "xtol_de"] then Some (VNum (fdec 1 8))
  else if is ["omega_pso"] then Some (VNum (fdec 7298 4))
  else if is ["eta1_pso"; "eta2_pso"] then Some (VNum (fdec 205 2))
  else if is ["variant_pso"] then Some (VNum (PInt 5))
  else if is ["neighborhood_type_pso"] then Some (VNum (PInt 2))
  else None.
