(** Specification vocabulary for comparing two runs. *)
From Verif Require Import Model.Base Model.Value Model.Names Model.PlanModel Model.Metadata Model.Filters Model.Dest Model.Output Model.Sampler.
From Verif Require Import Model.Materialize.
From Verif Require Import Spec.SqlSem Spec.RunSpec Spec.WholeSpec Spec.CompactWholeSpec.
Open Scope list_scope.

(** Filters whose values do not depend on a random generator: zero, omit, null, constant, and plugins that ignore it. *)
Definition same_values {G} (r r' : res filter_exn (list value * G)) : Prop := forall l g l' g', r = Ok (l, g) -> r' = Ok (l', g') -> l = l'.
Definition steady_simple {G} (F : filter_env G) (s : simple_filter) : Prop :=
  match s with
  | SfZero _ | SfOmit _ | SfNull _ | SfConstant _ _ => True
  | SfPlugin _ m c => forall vs g g', same_values (fe_plugin F m c vs g) (fe_plugin F m c vs g')
  | _ => False
  end.
Definition steady {G} (F : filter_env G) (f : filter_config) : Prop :=
  match f with
  | FcSimple s => steady_simple F s
  | FcMultiplex _ conds => forall k, In k conds -> steady_simple F (mc_apply k)
  end.
(** The planned table [t] has only such filters. *)
Definition steady_table {G} (E : env G) (cfg : sampler_config) (t : string) : Prop := forall f, In f (filters_of cfg t) -> steady (en_filters E) f.

(** Columns are renumbered as the sampler supports it, or not at all. *)
Definition renumbers_soundly {G} (E : env G) (cfg : sampler_config) (p : plan) : Prop :=
  no_compaction (sc_compact cfg) \/ exists ms compact, renumbers E cfg p ms compact.

(** The environment [E] as another process sees it: Python's hashes of strings, and so the iteration orders of sets, and the random
    numbers of the database differ. *)
Definition in_process {G} (E : env G) (ord_str : list string -> list string) (ord_name : list tname -> list tname) (z : phase -> tname -> rnd) : env G :=
  Sampler.mkEnv (en_filters E) (en_fnm E) (en_resub E) ord_str ord_name (en_source_schema E) (en_source E) (en_src_int E) (en_src_autoinc E) (en_cmp E) (en_text E) (en_raw E)
    (en_raw_cols E) z (en_rank E) (en_reopen E) (en_dflt E) (en_accepts E) (en_computed E) (en_autoinc E) (en_dst_int E) (en_currval E) (en_buffer E).
