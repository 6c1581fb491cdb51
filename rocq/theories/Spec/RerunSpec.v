(** Running the same sample again, at a later time. *)
From Verif Require Import Model.Base Model.Value Model.Names Model.PlanModel Model.Metadata Model.Dest Model.Output Model.Sampler.

(** The same program, source, plan data and randomness; the destination's decisions to refuse statements and the positions of its
    sequences may have changed. *)
Definition later {G} (E : env G) (accepts : dest -> event -> bool) (currval : tname -> option Z) : env G :=
  Sampler.mkEnv (en_filters E) (en_fnm E) (en_resub E) (en_ord_str E) (en_ord_name E) (en_source_schema E) (en_source E) (en_src_int E)
    (en_src_autoinc E) (en_cmp E) (en_text E) (en_raw E) (en_raw_cols E) (en_rnd E) (en_rank E) (en_reopen E) (en_dflt E) accepts
    (en_computed E) (en_autoinc E) (en_dst_int E) currval (en_buffer E).
