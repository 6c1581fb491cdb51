(** Properties C82 and later: whole runs.  As in OutputProps.v, theorems quantify over the environment [E], the configuration, the plan
    and the destination before the run. *)
From Coq Require Import Lia.
From Verif Require Import Model.Base Model.Value Model.Names Model.PlanModel Model.SqlAlgebra Model.Metadata Model.Planner Model.Filters Model.Multiply Model.Materialize Model.Dest Model.Output Model.Sampler.
From Verif Require Import Spec.GraphSpec Spec.SchemaSpec Spec.SqlSem Spec.PlannerSpec Spec.FilterSpec Spec.OutputSpec Spec.RunSpec Spec.RerunSpec.
From Verif Require Import Proofs.MetadataMain Proofs.PlannerExamples Proofs.SampleExamples.
From Verif Require Import Model.Dest.
From Verif Require Import Proofs.BaseFacts Proofs.NameFacts Proofs.OutputMore Proofs.OutputRerun Proofs.OutputExamples.
Open Scope string_scope.
Open Scope list_scope.

Section Props.
Context {G : Type}.
Variables (E : env G) (cfg : sampler_config) (c : db_config) (p : plan) (w : world).
Notation queries := (dkeys (p_queries p)).
Notation schema w := (ds_tables (w_dest w)).
Notation is_target := (target (en_resub E) (oc_remap c) queries).

(** C82 *)
Theorem C82_created_tables : forall truncate create g w' r,
  run_ok E cfg c p (w_dest w) -> trace w = [] -> sample E cfg p truncate create g w = (w', r) ->
  exists created, schema w' = schema w ++ created /\ NoDup (map tb_name created) /\
    (forall t, In t created -> create = true /\ is_target (tb_name t) /\ (~ exists t', table_of (schema w) (tb_name t) t') /\
       exists s n st, In s queries /\ named s n /\ table_of (en_source_schema E) n st /\ duplicates (en_resub E) (oc_remap c) st t /\
         forall fk, In fk (tb_fks t) -> is_target (fk_dst fk)) /\
    (create = true -> (exists g', r = Ok g') -> forall n, is_target n -> exists t, table_of (schema w') n t).
Proof. intros until r. intros H1 H2 H3. exact (created_tables H1 H2 H3). Qed.

(** C83.  The first attempt may have had other options, another random state and another behaviour of the destination; it stopped
    after the statements [tr]. *)
Theorem C83_run_again : forall accepts0 currval0 truncate0 create0 g0 w0 r0 tr d accepts currval create g w' g',
  run_ok E cfg c p (w_dest w) -> trace w = [] ->
  sample (later E accepts0 currval0) cfg p truncate0 create0 g0 w = (w0, r0) ->
  initial_part tr (trace w0) -> replay (en_dflt E) (w_dest w) tr d -> (forall ts, ~ In (EvCreate ts) tr) ->
  sample E cfg p true create g w = (w', Ok g') -> (forall d e, accepts d e = true) ->
  exists w2, sample (later E accepts currval) cfg p true create g (mkWorld d []) = (w2, Ok g') /\ schema w2 = schema w' /\
    forall n t, table_of (schema w') n t -> rows_of (w_dest w2) n = rows_of (w_dest w') n.
Proof. intros until g'. intros H1 H2 H3 H4 H5 H6 H7 H8. eapply (rerun_after_crash currval H8 H1 H2 H3); eassumption. Qed.

(** ... and more generally a truncating run forgets what its tables held. *)
Theorem C83_truncating_run_forgets : forall accepts currval create g w2 w' g',
  run_ok E cfg c p (w_dest w) -> trace w = [] -> trace w2 = [] -> schema w = schema w2 ->
  sample E cfg p true create g w = (w', Ok g') -> (forall d e, accepts d e = true) ->
  (forall n, ~ affected (en_resub E) (oc_remap c) (schema w') queries n -> rows_of (w_dest w) n = rows_of (w_dest w2) n) ->
  exists w2', sample (later E accepts currval) cfg p true create g w2 = (w2', Ok g') /\ schema w2' = schema w' /\
    forall n t, table_of (schema w') n t -> rows_of (w_dest w2') n = rows_of (w_dest w') n.
Proof. intros until g'. intros H1 H2 H3 H4 H5 H6 H7. exact (rerun_same currval H6 H1 H2 H3 H4 H5 H7). Qed.
End Props.
Print Assumptions C82_created_tables.
Print Assumptions C83_run_again.
Print Assumptions C83_truncating_run_forgets.

(** ** Cases *)
Definition error : db_config := mkDbConfig PostgreSQL [("s.orders", "t.purchases")] SError false.
(** Users exist; orders are created under another name, with their foreign key. *)
Example C82_case : let '(w', r) := orun error ["users"; "orders"] false true (odest [users] [] []) in r = Ok tt /\
  ds_tables (w_dest w') = [users] ++ [mkTable ("t", "purchases") ["id"; "uid"] ["id"] [mkFK ["uid"] ("s", "users") ["id"]] []].
Proof. vm_compute. split; reflexivity. Qed.
(** The destination refuses the second batch of orders and the run stops; run again, it ends as if nothing had happened. *)
Definition moody (d : dest) (e : event) : bool := match e with EvInsert ("s", "orders") _ [r] => false | _ => true end.
Definition straight : db_config := mkDbConfig PostgreSQL [] SError false.
Definition before_run : world := odest oschema [(("s", "users"), [[("id", VInt 9); ("name", VStr "z")]]); (("s", "ulog"), [[("what", VStr "x"); ("uid", VInt 9)]])] [].
Definition run accepts w := sample (later (oenv yes none) accepts none) (ocfg straight) (oplan ["users"; "orders"]) true false tt w.
Example C83_case :
  let '(w0, r0) := run moody before_run in let '(w', r') := run yes before_run in
  run_ok (oenv yes none) (ocfg straight) straight (oplan ["users"; "orders"]) (w_dest before_run) /\
  r0 = Err OxDbError /\ length (trace w0) = 8 /\ replay odflt (w_dest before_run) (trace w0) (w_dest w0) /\
  length (rows_of (w_dest w0) ("s", "orders")) = 2 /\ r' = Ok tt /\ length (rows_of (w_dest w') ("s", "orders")) = 3 /\
  exists w2, run yes (mkWorld (w_dest w0) []) = (w2, Ok tt) /\ ds_rows (w_dest w2) = ds_rows (w_dest w').
Proof.
  destruct (run moody before_run) as [w0 r0] eqn:H0. vm_compute in H0. injection H0 as <- <-.
  destruct (run yes before_run) as [w1 r1] eqn:H1. vm_compute in H1. injection H1 as <- <-.
  split; [apply orun_ok; vm_compute; reflexivity|]. split; [reflexivity|]. split; [reflexivity|].
  split; [repeat (eapply replay_cons; [vm_compute; reflexivity|]); apply replay_nil|]. split; [reflexivity|]. split; [reflexivity|]. split; [reflexivity|].
  eexists. split; [vm_compute; reflexivity|]. reflexivity.
Qed.
