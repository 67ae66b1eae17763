(** Model of /repo/src/sloth/core/unit.py and
    /repo/src/sloth/core/template_units.py. *)
From Verif Require Export Base Num.
Open Scope Z_scope.

(** class Unit, unit.py lines 14-44.  The description (display text) is not
    modelled; [u_dim] is the OrderedDict [self.dimension]. *)
Record unit := mkUnit { u_name : string; u_dim : dict num }.

(** The dictionary every Unit starts from, unit.py line 38. *)
Definition base_dim : dict num :=
  [("m", PInt 0); ("kg", PInt 0); ("s", PInt 0); ("A", PInt 0);
   ("K", PInt 0); ("mol", PInt 0); ("cd", PInt 0)].

(** module constant null_dimension, unit.py line 12. *)
Definition null_dimension : dict num :=
  map (fun k => (k, PFloat (S754_zero false))) ["m"; "kg"; "s"; "A"; "K"; "mol"; "cd"].

(** Unit.__init__ with _re_eval_dimensions, unit.py lines 23-44 and 73-98:
    the items of the given dictionary (or of the given Unit) are assigned in
    sorted key order over the seven base entries.  Assigning to a dict never
    raises KeyError, so the except branch (lines 96-98) is dead. *)
Definition unit_init (name : string) (d : dict num) : unit :=
  mkUnit name (fold_left (fun acc kv => dset (fst kv) (snd kv) acc) (sort_items d) base_dim).

(** Unit._is_dimensionless, unit.py lines 46-59. *)
Definition is_dimensionless (u : unit) : bool :=
  forallb (fun kv => neqb (PFloat (to_float (snd kv))) (PFloat (S754_zero false))) (u_dim u).

(** Unit._check_dimensional_coherence, unit.py lines 347-379: over the sorted
    keys of [self]; a key missing in [other] is a KeyError, unless an earlier
    key already differed. *)
Definition coherent (u v : unit) : res bool :=
  all_res (fun kv => match dget (fst kv) (u_dim v) with
                     | None => Raise EKey
                     | Some x => Ok (neqb (snd kv) x)
                     end)
          (sort_items (u_dim u)).

(** Unit.__add__, unit.py lines 120-141. *)
Definition unit_add (u v : unit) : res unit :=
  let* b := coherent u v in
  if b then Ok u else Raise EDimCoherence.

(** Unit.__sub__, unit.py lines 143-164. *)
Definition unit_sub (u v : unit) : res unit :=
  let* b := coherent u v in
  if b then Ok u else Raise EDimCoherence.

(** Unit.__mul__ with a Unit operand, unit.py lines 182-200. *)
Definition unit_mul (u v : unit) : unit :=
  unit_init ""
    (fold_left (fun acc kv =>
                  match dget (fst kv) acc with
                  | Some x => dset (fst kv) (nadd x (snd kv)) acc
                  | None => dset (fst kv) (snd kv) acc
                  end)
               (u_dim u) (u_dim v)).

(** Unit.__truediv__ (and __div__) with a Unit operand, unit.py lines 228-246
    and 275-293: the loop runs over the names of the denominator only.  Each
    entry is overwritten after it was read, so the in-place loop is a map. *)
Definition unit_div (u v : unit) : unit :=
  unit_init ""
    (map (fun kv => (fst kv, match dget (fst kv) (u_dim u) with
                             | Some x => nsub x (snd kv)
                             | None => nopp (snd kv)
                             end))
         (u_dim v)).

(** Unit.__pow__ with a number, unit.py lines 319-331. *)
Definition unit_pow_num (u : unit) (p : num) : unit :=
  unit_init "" (map (fun kv => (fst kv, nmul (snd kv) p)) (u_dim u)).

(** Unit.__pow__ with a Unit, unit.py lines 333-345: a dimensionless exponent
    unit leaves the dimension as it is. *)
Definition unit_pow_unit (u p : unit) : res unit :=
  if is_dimensionless p then Ok (unit_init "" (u_dim u)) else Raise EUnexpectedValue.

(** Operands of the overloaded operators of Unit. *)
Inductive uarg := UAUnit (u : unit) | UANum (n : num) | UAOther.
(** Results: a Unit or a fresh Quantity("", unit, value). *)
Inductive ures := URUnit (u : unit) | URQuantity (u : unit) (value : num).

(** Unit.__mul__, unit.py lines 166-210. *)
Definition unit_mul_op (u : unit) (a : uarg) : res ures :=
  match a with
  | UAUnit v => Ok (URUnit (unit_mul u v))
  | UANum n => Ok (URQuantity (unit_init "" (u_dim u)) n)
  | UAOther => Raise EUnexpectedValue
  end.

(** Unit.__truediv__, unit.py lines 259-303. *)
Definition unit_div_op (u : unit) (a : uarg) : res ures :=
  match a with
  | UAUnit v => Ok (URUnit (unit_div u v))
  | UANum n => let* i := ninv n in Ok (URQuantity (unit_init "" (u_dim u)) i)
  | UAOther => Raise EUnexpectedValue
  end.

(** Unit.__pow__, unit.py lines 305-345. *)
Definition unit_pow_op (u : unit) (a : uarg) : res unit :=
  match a with
  | UAUnit v => unit_pow_unit u v
  | UANum n => Ok (unit_pow_num u n)
  | UAOther => Raise EUnexpectedValue
  end.

(** ** template_units.py lines 10-34.  [Unit(name, unit)] copies the
    dimension of a Unit (unit.py lines 82-84). *)
Definition u_dimless : unit := unit_init "None" null_dimension.
Definition u_m : unit := unit_init "m" [("m", PInt 1)].
Definition u_kg : unit := unit_init "kg" [("kg", PInt 1)].
Definition u_s : unit := unit_init "s" [("s", PInt 1)].
Definition u_A : unit := unit_init "A" [("A", PInt 1)].
Definition u_K : unit := unit_init "K" [("K", PInt 1)].
Definition u_mol : unit := unit_init "mol" [("mol", PInt 1)].
Definition u_cd : unit := unit_init "cd" [("cd", PInt 1)].
Definition u__s : unit := unit_init "1/s" (u_dim (unit_pow_num u_s (PInt (-1)))).
Definition u__m2 : unit := unit_init "1/m^2" (u_dim (unit_pow_num u_m (PInt (-2)))).
Definition u__m3 : unit := unit_init "1/m^3" (u_dim (unit_pow_num u_m (PInt (-3)))).
Definition u_m_s : unit := unit_init "m/s" (u_dim (unit_div u_m u_s)).
Definition u_m_s2 : unit := unit_init "m/s^2" (u_dim (unit_div u_m (unit_pow_num u_s (PInt 2)))).
Definition u_kg_s : unit := unit_init "kg/s" (u_dim (unit_div u_kg u_s)).
Definition u_mol_s : unit := unit_init "mol/s" (u_dim (unit_div u_mol u_s)).
Definition u_Force : unit := unit_init "Force" (u_dim (unit_mul u_kg u_m_s2)).
Definition u_Pa : unit := unit_init "Pa" (u_dim (unit_div u_Force (unit_pow_num u_m (PInt 2)))).
Definition u_atm : unit := unit_init "atm" (u_dim (unit_div u_Force (unit_pow_num u_m (PInt 2)))).
Definition u_J : unit := unit_init "Joule" (u_dim (unit_mul u_kg (unit_pow_num u_m_s (PInt 2)))).
Definition u_R : unit :=
  unit_init "R" (u_dim (unit_mul (unit_mul u_J (unit_pow_num u_K (PInt (-1))))
                                 (unit_pow_num u_mol (PInt (-1))))).
