(** What users expect of configurations and of the status of a simulation. *)
From Verif Require Export SimModel.
From Verif Require Import DomainModel.
Notation num := Verif.Num.num.

(** ** Options *)

(** Value of option [k] in the configuration of simulation [s]. *)
Definition option_of (s : sim) (k : string) : option cval :=
  match sm_conf s with Some c => dget k c | None => None end.

(** The documented options. *)
Definition documented (k : string) : Prop := In k (dkeys conf_defaults).

(** [v] is what was written for option [k]: as keyword, else the default. *)
Inductive written (kwargs : dict cval) (k : string) : cval -> Prop :=
| wr_given v : dget k kwargs = Some v -> written kwargs k v
| wr_default v : dget k kwargs = None -> dget k conf_defaults = Some v -> written kwargs k v.

(** The number of optimised parameters given as keyword counts (it is not 0). *)
Definition number_given (kwargs : dict cval) (n : cval) : Prop :=
  dget "number_parameters_to_optimize" kwargs = Some n /\ cval_eqb n (VNum (PInt 0)) = false.

(** ** Sharing *)

(** Option [k] of simulation [j] as a user sees it now: the contents of a list,
    or the value itself. *)
Definition contents (st : store) (v : cval) : cval :=
  match v with VRef r => match nth_error st r with Some l => VList l | None => v end | _ => v end.
Definition sees (w : sworld) (j : nat) (k : string) (v : cval) : Prop :=
  exists s v0, nth_error (sw_sims w) j = Some s /\ option_of s k = Some v0 /\ v = contents (sw_store w) v0.

(** Simulation [i] uses list object [r] as its list of argument names. *)
Definition appends_to (w : sworld) (i r : nat) : Prop :=
  exists s, nth_error (sw_sims w) i = Some s /\ option_of s "arg_names" = Some (VRef r).

(** The simulation an action works on. *)
Definition target (a : saction) : option nat :=
  match a with
  | ANewSim | ANewList _ => None
  | AProblem i _ | AConf i _ | ARun i _ _ _ _ => Some i
  end.

(** A configuration that keeps off list [r]. *)
Definition keeps_off (r : nat) (a : saction) : Prop :=
  match a with
  | AConf _ c =>
      r <> arg_names_default /\
      dget "arg_names" (ca_kwargs c) <> Some (VRef r) /\
      (forall d, ca_dict c = VDict d -> ~ In ("arg_names", VRef r) d) /\
      (forall d, ca_file c = Some (Ok d) -> ~ In ("arg_names", VRef r) d)
  | _ => True
  end.

(** ** Results *)

Definition algebraic_problem (s : sim) : Prop :=
  exists p b, sm_problem s = Some p /\ pr_block p = Some b /\
              (problem_type b = Some PTLinear \/ problem_type b = Some PTNonlinear).

(** The last run of simulation [i] in a history that ended, and how. *)
Fixpoint last_run (tables : nat -> option (dict (frame num))) (w : sworld) (l : list saction) (i : nat)
    (before : option (res Datatypes.unit)) : option (res Datatypes.unit) :=
  match l with
  | [] => before
  | a :: r =>
      let '(w', o) := sstep tables w a in
      last_run tables w' r i (match a with ARun j _ _ _ _ => if Nat.eqb i j then Some o else before | _ => before end)
  end.

(** The solver of simulation [i] once returned a dictionary of values. *)
Definition once_solved (l : list saction) (i : nat) : Prop :=
  exists sanity show dof d, In (ARun i sanity show dof (Ok (OutDict d))) l.

(** ** Saved configurations *)

(** Plain data: what a JSON text can hold. *)
Inductive plain_data : cval -> Prop :=
| pd_none : plain_data VNone
| pd_bool b : plain_data (VBool b)
| pd_num n : plain_data (VNum n)
| pd_str s : plain_data (VStr s)
| pd_list l : (forall x, In x l -> plain_data x) -> plain_data (VList l)
| pd_dict d : (forall k x, In (k, x) d -> plain_data x) -> plain_data (VDict d).
