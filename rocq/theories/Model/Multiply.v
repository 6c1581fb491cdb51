(** Model of the multiplicity computation of /repo/subsetter/sampler.py. *)
From Verif Require Import Model.Base Model.Value Model.Names Model.PlanModel Model.Metadata.

(** Exceptions of [_get_multiplied_columns]; out of fuel is proved unreachable.  (sampler.py:1116, 1143, 1160) *)
Inductive mult_exn := MuValueError | MuKeyError | MuOutOfFuel.

(** config_model.py MultiplicityConfig.  (config_model.py:88-92) *)
Record mult_config := mkMult {
  mc_multiplier : Z;
  mc_extra : dict string (list string);          (* extra_columns *)
  mc_ignore_tables : list string;                (* ignore_tables *)
  mc_ignore_pk : dict string (list string) }.    (* ignore_primary_key_columns *)

(** sampler.py:298-303  _multiply_column on integers and None ([Model/Output.v] extends it to all
    Python values). *)
Definition multiply_column (value : option Z) (multiplier iteration : Z) : option Z :=
  match value with
  | None => None
  | Some v => Some (v * multiplier + iteration)%Z
  end.

(** [meta.tables[parse_table_name(table_name)]] (1116, 1134, 1151).  (sampler.py:1116, 1134, 1153) *)
Definition lookup_table (ms : meta) (t : string) : res mult_exn tmeta :=
  match parse_table_name t with
  | None => Err MuValueError
  | Some n => dfind MuKeyError ms n
  end.

Section Multiply.
Variable cfg : mult_config.
(** The tables of the plan, sampler.py:1087-1100. *)
Variable ms : meta.
(** [issubclass(col.type.python_type, int)] of a column of a source table.  (sampler.py:1159) *)
Variable is_int : tname -> string -> bool.
(** the iteration order of a Python set.  (sampler.py:1157) *)
Variable ord : list string -> list string.

(** sampler.py:1107-1109 *)
Definition ignore_tables (passthrough : list string) : list string :=
  set_union (set_of passthrough) (set_of (mc_ignore_tables cfg)).

(** sampler.py:1112-1125  the directly multiplied columns of every table *)
Definition direct_columns (ign : list string) (queries : list string)
  : res mult_exn (dict string (list string)) :=
  forM (fun result t =>
    if memb t ign then Ok result
    else
      let* m := lookup_table ms t in
      let cols := set_of (dget_or (mc_extra cfg) t []) in
      let ignored := set_of (dget_or (mc_ignore_pk cfg) t []) in
      Ok (dset result t (set_update cols (set_diff (set_of (tb_pk (tm_table m))) ignored))))
  queries [].

(** sampler.py:1131-1147  one pass over the plan.  [cols] is the set stored in [result] (updated in place) or, for
    an ignored table, a fresh set. *)
Definition closure_pass (ign : list string) (queries : list string)
    (result : dict string (list string)) : res mult_exn (dict string (list string) * bool) :=
  forM (fun (rc : dict string (list string) * bool) t =>
    let '(result, changes) := rc in
    let* m := lookup_table ms t in
    let cols0 := dget_or result t [] in
    (* sampler.py:1138-1140: [result] may already hold the in-place updates of [cols] when [fk] is a self
       reference *)
    let rcols := fold_left (fun (rcols : dict string (list string) * list string) fk =>
                   let '(result, cols) := rcols in
                   let dst_mapped := dget_or result (render (fk_dst fk)) [] in
                   let cols' := set_update cols (set_inter (set_of (fk_cols fk)) dst_mapped) in
                   (if dmem result t then dset result t cols' else result, cols'))
                 (tm_fks m) (result, cols0) in
    let '(result, cols) := rcols in
    if negb (is_nil cols) && memb t ign then Err MuValueError
    else Ok (result, changes || Nat.ltb (length cols0) (length cols)))
  queries (result, false).

(** sampler.py:1130-1150  [while True] *)
Fixpoint closure_loop (fuel : nat) (ign : list string) (queries : list string)
    (result : dict string (list string)) : res mult_exn (dict string (list string)) :=
  match fuel with
  | O => Err MuOutOfFuel
  | S f =>
      let* (result', changes) := closure_pass ign queries result in
      if changes then closure_loop f ign queries result' else Ok result'
  end.

(** sampler.py:1152-1163  every multiplied column is integral *)
Definition verify_columns (queries : list string) (result : dict string (list string))
  : res mult_exn unit :=
  forM (fun _ t =>
    let* m := lookup_table ms t in
    forM (fun _ c =>
      if memb c (tb_cols (tm_table m)) then
        if is_int (tm_name m) c then Ok tt else Err MuValueError
      else Err MuKeyError) (ord (dget_or result t [])) tt)
  queries tt.

(** Number of foreign key columns of the planned tables: bounds the number of passes.  (sampler.py:1130-1150) *)
Definition closure_fuel (queries : list string) : nat :=
  S (list_sum (map (fun t => match lookup_table ms t with
                             | Ok m => list_sum (map (fun fk => length (fk_cols fk)) (tm_fks m))
                             | Err _ => 0
                             end) queries)).

(** sampler.py:1087-1165  _get_multiplied_columns *)
Definition get_multiplied_columns (p : plan) : res mult_exn (dict string (list string)) :=
  if (mc_multiplier cfg <=? 1)%Z then Ok []
  else
    let queries := dkeys (p_queries p) in
    let ign := ignore_tables (p_passthrough p) in
    let* result := direct_columns ign queries in
    let* result := closure_loop (closure_fuel queries) ign queries result in
    let* _ := verify_columns queries result in
    Ok result.
End Multiply.
