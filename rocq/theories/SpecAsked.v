(** * What numeric routines are asked, and which refusals are told apart

    Spec vocabulary for C83_asked, C29_key, C39_missing, C61_fields. *)
From Coq Require Import ZArith List Bool String Reals.
From Verif Require Import Base Num UnitModel Sympy Node Build EquationModel ModelModel ProblemModel SpecProblem SolverModel SimModel WholeModel OptimModel SpecOptim.
From Verif Require SpecSim.
Import ListNotations.
Local Open Scope list_scope.

(** The vector the options ask a root finder to start from: the option
    [initial_guess], unknown by unknown, or ones when it is the empty
    dictionary. *)
Definition guessed (s : SimModel.sim) (vars : list string) (g : list R) : Prop :=
  exists d, SpecSim.option_of s "initial_guess" = Some (VDict d) /\ List.length g = List.length vars /\
    (d = [] -> forall r, In r g -> r = 1%R) /\
    (d <> [] -> forall i x r, nth_error vars i = Some x -> nth_error g i = Some r ->
       exists n, In (x, VNum n) d /\ num_value n = Some r).

(** The vector improved by the routine named by the option
    [initial_guess_solver], when there is one and it finds something. *)
Definition improved (s : SimModel.sim) (eng : engines R) (vars : list string) (es : list sx) (g g' : list R) : Prop :=
  (SpecSim.option_of s "initial_guess_solver" = Some VNone -> g' = g) /\
  (forall m, SpecSim.option_of s "initial_guess_solver" = Some (VStr m) ->
     match polish eng m vars es g with Some q => g' = q | None => g' = g end).

(** The option [k] is a text. *)
Definition chosen (s : SimModel.sim) (k name : string) : Prop := SpecSim.option_of s k = Some (VStr name).
(** The option [k] is None: the default of the solver is used. *)
Definition default (s : SimModel.sim) (k : string) : Prop := SpecSim.option_of s k = Some VNone.

(** Options without which a mechanism is not made: those it uses, those pygmo
    would have, and the number of individuals. *)
Definition requires (m k : string) : Prop :=
  (exists a w, offered m k a w) \/ k = "number_of_individuals"%string \/ (m = "ga" /\ k = "elitism")%string.

(** The name under which a problem keeps a connection: [a,b@M ---> c@N]. *)
Definition connection_text (outs : list string) (m1 : string) (ins : list string) (m2 : string) : string :=
  (String.concat "," outs ++ "@" ++ m1 ++ " ---> " ++ String.concat "," ins ++ "@" ++ m2)%string.

(** The sum of a list of expressions. *)
Fixpoint total_of (l : list sx) (v : env) : option R :=
  match l with
  | [] => Some 0%R
  | x :: r => lift2 Rplus (den x v) (total_of r v)
  end.
(** The product of a list of expressions. *)
Fixpoint product_of (l : list sx) (v : env) : option R :=
  match l with
  | [] => Some 1%R
  | x :: r => lift2 Rmult (den x v) (product_of r v)
  end.
