(** Optimisation problems and studies (/repo/src/sloth/optimization.py). pygmo
    is outside the model: what its constructors accept and what an evolution
    returns are parameters of the functions below. Printing, timing, logs and
    graphs are left out. *)
From Verif Require Import Base Num Node SolverModel SimModel.

(** Python [x < y] on numbers, exact between int and double as Python does it
    (used in optimization.py lines 113, 117). *)
Definition float_cmp_Z (f : spec_float) (z : Z) : option comparison :=
  match f with
  | S754_zero _ => Some (0 ?= z)
  | S754_infinity s => Some (if s then Lt else Gt)
  | S754_nan => None
  | S754_finite s m e =>
      let v := if s then Zneg m else Zpos m in
      Some (if 0 <=? e then v * 2 ^ e ?= z else v ?= z * 2 ^ (- e))
  end.
Definition nltb (x y : num) : bool :=
  match x, y with
  | PInt a, PInt b => a <? b
  | PFloat f, PFloat g => SFltb f g
  | PFloat f, PInt b => match float_cmp_Z f b with Some Lt => true | _ => false end
  | PInt a, PFloat g => match float_cmp_Z g a with Some Gt => true | _ => false end
  end.

(** ** OptimizationProblem *)

(** An OptimizationProblem object, lines 40-60. [op_fitness] is the method
    DeclareObjectiveFunction the user overloads, lines 119-125. The attributes
    [description] and [simulation_instance] are left out. *)
Record oproblem := mkOP {
  op_name : string; op_dim : nat; op_max : bool; op_bounds : cval;
  op_simconf : option (dict cval); op_ready : bool; op_fitness : list num -> res (list num) }.

(** OptimizationProblem.__init__, lines 40-60: the arguments [bounds] and
    [is_maximization] are not used. *)
Definition new_oproblem (dim : nat) (name : string) (bounds : cval) (is_maximization : bool)
  (f : list num -> res (list num)) : oproblem :=
  mkOP name dim false VNone None false f.

(** setBounds, lines 78-80. *)
Definition op_set_bounds (p : oproblem) (b : cval) : oproblem :=
  mkOP (op_name p) (op_dim p) (op_max p) b (op_simconf p) (op_ready p) (op_fitness p).
(** The attribute [is_maximization] assigned by the user (read in line 111). *)
Definition op_set_max (p : oproblem) (m : bool) : oproblem :=
  mkOP (op_name p) (op_dim p) m (op_bounds p) (op_simconf p) (op_ready p) (op_fitness p).
(** _setSimulationConfiguration, lines 86-88. *)
Definition op_set_simconf (p : oproblem) (c : dict cval) : oproblem :=
  mkOP (op_name p) (op_dim p) (op_max p) (op_bounds p) (Some c) (op_ready p) (op_fitness p).
(** __call__, lines 127-135. *)
Definition op_call (p : oproblem) : oproblem :=
  mkOP (op_name p) (op_dim p) (op_max p) (op_bounds p) (op_simconf p) true (op_fitness p).

(** [np.array(v).ndim], line 96, for scalars, lists of scalars and lists of
    equally long lists; other nestings (which numpy refuses or keeps as objects)
    are [None]. A dictionary or None is a scalar. *)
Fixpoint ndim (v : cval) : option nat :=
  match v with
  | VList l =>
      (fix go (l : list cval) : option nat :=
         match l with
         | [] => Some 1%nat
         | [x] => option_map S (ndim x)
         | x :: ((y :: _) as r) =>
             match ndim x, go r with
             | Some d, Some e =>
                 if Nat.eqb (S d) e
                    && match x, y with VList a, VList b => Nat.eqb (List.length a) (List.length b) | _, _ => true end
                 then Some e else None
             | _, _ => None
             end
         end) l
  | _ => Some 0%nat
  end.

(** One entry of the tuple made of the bounds: [np.array(i)] of a list is a
    vector, of anything else a scalar. *)
Inductive bvec := BVec (l : list cval) | BScalar (v : cval).

(** DeclareSetBounds, lines 90-102. [for i in self.bounds] runs over the keys of
    a dictionary and the characters of a string and raises TypeError on None,
    booleans and numbers. *)
Definition declare_bounds (p : oproblem) : res (list bvec) :=
  match ndim (op_bounds p) with
  | None => Raise EValue
  | Some 1%nat =>
      match op_bounds p with
      | VList l => Ok (map (fun i => BVec [i]) l)
      | _ => Raise EType
      end
  | Some _ =>
      match op_bounds p with
      | VList l => Ok (map (fun i => match i with VList x => BVec x | _ => BScalar i end) l)
      | VDict d => Ok (map (fun kv => BScalar (VStr (fst kv))) d)
      | VStr s => Ok (map (fun c => BScalar (VStr (String c ""))) (list_ascii_of_string s))
      | _ => Raise EType
      end
  end.

(** get_bounds before (lines 66-68) and after (line 133) the problem is called.
    Before the call the raw attribute is returned, of which pygmo reads the two
    entries of a list. *)
Definition get_bounds (p : oproblem) : res (list bvec) :=
  if op_ready p then declare_bounds p
  else match op_bounds p with
       | VList l => Ok (map (fun i => match i with VList x => BVec x | _ => BScalar i end) l)
       | _ => Raise EType
       end.

(** DeclareFitnessComparison, lines 105-117; IndexError on empty vectors. *)
Definition compare_fitness (p : oproblem) (f1 f2 : list num) : res bool :=
  match f1, f2 with
  | a :: _, b :: _ => Ok (if op_max p then nltb b a else nltb a b)
  | _, _ => Raise EIndex
  end.

(** What [pg.problem] requires of the bounds (line 549): a pair of vectors of
    numbers, of the same positive length, the lower not above the upper. *)
Definition number_of (v : cval) : option num := match v with VNum n => Some n | _ => None end.
Fixpoint numbers_of (l : list cval) : option (list num) :=
  match l with
  | [] => Some []
  | v :: r => match number_of v, numbers_of r with Some n, Some s => Some (n :: s) | _, _ => None end
  end.
Definition ordered (lo hi : num) : bool := neqb lo hi || nltb lo hi.
Fixpoint all_ordered (lo hi : list num) : bool :=
  match lo, hi with
  | [], [] => true
  | a :: l, b :: h => ordered a b && all_ordered l h
  | _, _ => false
  end.
Definition pg_box (b : list bvec) : res (list num * list num) :=
  match b with
  | [BVec l; BVec h] =>
      match numbers_of l, numbers_of h with
      | Some (x :: lo), Some hi => if all_ordered (x :: lo) hi then Ok (x :: lo, hi) else Raise EValue
      | _, _ => Raise EValue
      end
  | _ => Raise EValue
  end.

(** ** Optimization *)

(** The algorithm objects of pygmo, lines 354, 378, 408, 443: the class and the
    keywords it is given. *)
Inductive algo := SGA | DE1220 | DE | PSO.
Record mechanism := mkMech { me_algo : algo; me_args : dict cval }.

(** The argument [optimizer], lines 316-322 and 451. *)
Inductive optarg := OCallable | OName (s : string) | OOther.

(** The entries of [optimization_parameters]: a Quantity (by name), a string or
    anything else (without an attribute [name]). *)
Inductive oparam := QParam (n : string) | SParam (n : string) | XParam.

(** The default configuration, lines 239-259. *)
Definition opt_defaults : dict cval :=
  [("number_of_individuals", VNum (PInt 100)); ("number_of_generations", VNum (PInt 600));
   ("crossover_rate", VNum (fdec 6 1)); ("mutation_rate", VNum (fdec 4 2)); ("elitism", VNum (PInt 1));
   ("crossover_type", VStr "exponential"); ("mutation_type", VStr "gaussian"); ("selection_type", VStr "tournament");
   ("selection_param", VNum (PInt 4)); ("scale_factor", VNum (fdec 5 1)); ("variant_de", VNum (PInt 10));
   ("ftol_de", VNum (fdec 1 8)); ("xtol_de", VNum (fdec 1 8)); ("omega_pso", VNum (fdec 7298 4));
   ("eta1_pso", VNum (fdec 205 2)); ("eta2_pso", VNum (fdec 205 2)); ("variant_pso", VNum (PInt 5));
   ("max_v_pso", VNum (fdec 5 1)); ("neighborhood_type_pso", VNum (PInt 2)); ("neighborhood_param_pso", VNum (PInt 4))].

(** The argument [optimization_configuration], lines 262-278: nothing, the
    contents of a json file, a dictionary, or anything else. [is {}] in line 262
    is never true, so an empty dictionary takes the branch of line 272. *)
Inductive confarg := CNone | CFile (r : res (dict cval)) | CDict (d : dict cval) | COther.
Definition opt_configuration (a : confarg) : res (dict cval) :=
  match a with
  | CNone => Ok opt_defaults
  | CFile r => r
  | CDict d => Ok (dupdate opt_defaults d)
  | COther => Raise EAbsentRequired
  end.

(** The argument [simulation_configuration], lines 191-207; [simconf] is
    [simulation.configurations]. *)
Definition sim_configuration (a : confarg) (simconf : option (dict cval)) : res (dict cval) :=
  match a with
  | CDict d => Ok d
  | CFile r => r
  | CNone => match simconf with Some c => Ok c | None => Raise EAbsentRequired end
  | COther => Raise EAbsentRequired
  end.

(** [self.optimization_configuration[k]] *)
Definition oget (c : dict cval) (k : string) : res cval :=
  match dget k c with Some v => Ok v | None => Raise EKey end.

(** pygmo's constructors, which refuse some arguments. *)
Definition pg_algorithm (accepts : algo -> dict cval -> bool) (a : algo) (args : dict cval) : res mechanism :=
  if accepts a args then Ok (mkMech a args) else Raise EValue.

(** _setOptimizer, lines 314-453: the name kept in [self.optimizer] and the
    mechanism. A callable and an unknown name leave both None. *)
Definition set_optimizer (accepts : algo -> dict cval -> bool) (c : dict cval) (o : optarg)
  : res (option string * option mechanism) :=
  match o with
  | OCallable => Ok (None, None)
  | OName s =>
      if String.eqb s "ga" then
        let* gen := oget c "number_of_generations" in
        let* cr := oget c "crossover_rate" in
        let* mr := oget c "mutation_rate" in
        let* _ := oget c "elitism" in
        let* _ := oget c "number_of_individuals" in
        let* crossover := oget c "crossover_type" in
        let* mutation := oget c "mutation_type" in
        let* selection := oget c "selection_type" in
        let* param := oget c "selection_param" in
        let* m := pg_algorithm accepts SGA
          [("gen", gen); ("cr", cr); ("eta_c", VNum (fdec 1 0)); ("m", mr); ("param_m", VNum (fdec 1 0)); ("param_s", param);
           ("crossover", crossover); ("mutation", mutation); ("selection", selection)] in
        Ok (Some "ga", Some m)
      else if String.eqb s "sade" then
        let* gen := oget c "number_of_generations" in
        let* ftol := oget c "ftol_de" in
        let* xtol := oget c "xtol_de" in
        let* _ := oget c "number_of_individuals" in
        let* m := pg_algorithm accepts DE1220 [("gen", gen); ("ftol", ftol); ("xtol", xtol)] in
        Ok (Some "sade", Some m)
      else if String.eqb s "de" then
        let* gen := oget c "number_of_generations" in
        let* cr := oget c "crossover_rate" in
        let* f := oget c "scale_factor" in
        let* variant := oget c "variant_de" in
        let* ftol := oget c "ftol_de" in
        let* xtol := oget c "xtol_de" in
        let* _ := oget c "number_of_individuals" in
        let* m := pg_algorithm accepts DE
          [("gen", gen); ("F", f); ("CR", cr); ("variant", variant); ("ftol", ftol); ("xtol", xtol)] in
        Ok (Some "de", Some m)
      else if String.eqb s "pso" then
        let* gen := oget c "number_of_generations" in
        let* omega := oget c "omega_pso" in
        let* eta1 := oget c "eta1_pso" in
        let* eta2 := oget c "eta2_pso" in
        let* vcoeff := oget c "max_v_pso" in
        let* variant := oget c "variant_pso" in
        let* _ := oget c "neighborhood_type_pso" in
        let* _ := oget c "neighborhood_param_pso" in
        let* _ := oget c "number_of_individuals" in
        let* m := pg_algorithm accepts PSO
          [("gen", gen); ("omega", omega); ("eta1", eta1); ("eta2", eta2); ("max_vel", vcoeff); ("variant", variant)] in
        Ok (Some "pso", Some m)
      else Ok (None, None)
  | OOther => Raise EUnexpectedValue
  end.

(** An Optimization object, lines 185-286. The problem object is held by
    reference in the source; here the object is part of the record, and
    [setOptimizationProblem] exchanges it. *)
Record study := mkSt {
  st_problem : oproblem; st_simconf : dict cval; st_params : list oparam; st_constraints : cval; st_max : bool;
  st_conf : dict cval; st_optimizer : option string; st_mech : option mechanism;
  st_best : option (list num * list num); st_success : bool }.

(** The arguments of Optimization.__init__ that are used, line 143. *)
Record sargs := mkSA {
  sa_problem : oproblem; sa_params : list oparam; sa_simconf : confarg; sa_constraints : cval; sa_max : bool;
  sa_optimizer : optarg; sa_conf : confarg }.

(** Optimization.__init__, lines 185-286. *)
Definition new_study (accepts : algo -> dict cval -> bool) (simconf : option (dict cval)) (a : sargs) : res study :=
  let* sc := sim_configuration (sa_simconf a) simconf in
  let* c := opt_configuration (sa_conf a) in
  let* om := set_optimizer accepts c (sa_optimizer a) in
  Ok (mkSt (sa_problem a) sc (sa_params a) (sa_constraints a) (sa_max a) c (fst om) (snd om) None false).

(** setConstraints, lines 294-296, and setOptimizationProblem, lines 302-308. *)
Definition set_constraints (s : study) (c : cval) : study :=
  mkSt (st_problem s) (st_simconf s) (st_params s) c (st_max s) (st_conf s) (st_optimizer s) (st_mech s) (st_best s) (st_success s).
Definition set_oproblem (s : study) (p : oproblem) : study :=
  mkSt p (st_simconf s) (st_params s) (st_constraints s) (st_max s) (st_conf s) (st_optimizer s) (st_mech s) (st_best s) (st_success s).
Definition set_best (s : study) (b : list num * list num) : study :=
  mkSt (st_problem s) (st_simconf s) (st_params s) (st_constraints s) (st_max s) (st_conf s) (st_optimizer s) (st_mech s) (Some b) (st_success s).
Definition set_success (s : study) : study :=
  mkSt (st_problem s) (st_simconf s) (st_params s) (st_constraints s) (st_max s) (st_conf s) (st_optimizer s) (st_mech s) (st_best s) true.

(** [all(op_i.name in constraints …)], line 473, and [all(op_i in constraints …)],
    line 479, left to right and stopping at the first False. A string has no
    attribute [name]; an object that is no string is hashed by identity and is
    not a key. *)
Fixpoint all_named (q : bool) (l : list oparam) (d : list (string * cval)) : res bool :=
  match l with
  | [] => Ok true
  | x :: r =>
      let* b := match x, q with
                | QParam n, true | SParam n, false => Ok (dmem n d)
                | _, true => Raise EAttribute
                | _, false => Ok false
                end in
      if b then all_named q r d else Ok false
  end.

(** _performSaneTests, lines 459-491 (the configuration is never None after
    __init__). *)
Definition sane (s : study) : res bool :=
  let* _ :=
    match st_constraints s with
    | VDict d =>
        match st_params s with
        | [] => Raise EIndex
        | QParam _ :: _ => let* b := all_named true (st_params s) d in if b then Ok tt else Raise EAbsentRequired
        | SParam _ :: _ => let* b := all_named false (st_params s) d in if b then Ok tt else Raise EAbsentRequired
        | XParam :: _ => Ok tt
        end
    | _ => Ok tt
    end in
  if op_ready (st_problem s) then Ok true else Raise EAbsentRequired.

(** An evolution: from the mechanism, the fitness, the box and the number of
    individuals, the champion and its fitness (lines 551-557). *)
Definition evolution := mechanism -> (list num -> res (list num)) -> list num * list num -> cval -> res (list num * list num).

(** The names printed by getOptimizationInfo, line 515: AttributeError for an
    entry without name. *)
Definition has_name (x : oparam) : bool := match x with XParam => false | _ => true end.

(** runOptimization, lines 529-617, with [after] for what happens once the best
    individual is stored (extraction of the log, graph, printing, lines 559-611). *)
Definition run_study (evolve : evolution) (after : res Datatypes.unit) (s : study) : study * res Datatypes.unit :=
  match sane s with
  | Raise e => (s, Raise e)
  | Ok false => (s, Raise EException)
  | Ok true =>
      let p := op_set_bounds (op_set_simconf (st_problem s) (st_simconf s)) (st_constraints s) in
      let s1 := set_oproblem s p in
      match st_mech s with
      | None => (s1, Raise EAttribute)
      | Some m =>
          match (let* _ := if forallb has_name (st_params s) then Ok tt else Raise EAttribute in
                 let* n := oget (st_conf s) "number_of_individuals" in
                 let* b := get_bounds p in
                 let* box := pg_box b in
                 evolve m (op_fitness p) box n) with
          | Raise e => (s1, Raise e)
          | Ok best =>
              let s2 := set_best s1 best in
              match after with
              | Raise e => (s2, Raise e)
              | Ok _ => (set_success s2, Ok tt)
              end
          end
      end
  end.

(** getResults, lines 619-635. *)
Definition study_results (s : study) : res (list num * list num) :=
  match st_best s with None => Raise EException | Some b => Ok b end.

(** ** Histories of one study *)
Inductive oaction :=
| OConstraints (c : cval)
| OProblem (p : oproblem)
| ORun (evolve : evolution) (after : res Datatypes.unit).
Definition ostep (s : study) (a : oaction) : study * res Datatypes.unit :=
  match a with
  | OConstraints c => (set_constraints s c, Ok tt)
  | OProblem p => (set_oproblem s p, Ok tt)
  | ORun evolve after => run_study evolve after s
  end.
Fixpoint ohist (s : study) (l : list oaction) : study :=
  match l with [] => s | a :: r => ohist (fst (ostep s a)) r end.
