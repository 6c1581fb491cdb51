(** C121, C122: what the plan does not depend on. *)
From Verif Require Import Model.Base Model.Value Model.Names Model.PlanModel Model.Metadata Model.Planner.
From Verif Require Import Spec.GraphSpec Spec.SchemaSpec Spec.PlannerSpec Spec.ListingSpec.
From Verif Require Import Proofs.BaseFacts Proofs.MetadataMain Proofs.PlannerSame.
From Verif Require Import Props.PlannerProps.
Open Scope string_scope.
Open Scope list_scope.

(** C121.  The same configuration, its entries written in another order, and the same schema, listed in
    another order by the database, give the same plan. *)
Theorem C121_order_of_entries : forall (fnm : string -> string -> bool) cfg cfg' db db' ord ord' ordp ordp',
  db_ok db -> config_ok cfg -> same_config cfg cfg' -> same_schema db db' ->
  any_order ord -> any_order ord' -> any_order ordp -> any_order ordp' ->
  same_plan (plan_db ord ordp fnm cfg db) (plan_db ord' ordp' fnm cfg' db').
Proof.
  intros fnm cfg cfg' db db' ord ord' ordp ordp' Hdb Hck Hc Hs. pose proof (same_schema_ok Hdb Hs) as Hdb'.
  apply plan_same; [exact Hdb|exact Hdb'|exact Hck|exact Hc|]. apply reordered_choice; assumption.
Qed.
Print Assumptions C121_order_of_entries.

(** C122.  The plan depends on the chosen tables only. *)
Theorem C122_chosen_tables : forall (fnm : string -> string -> bool) cfg db db' ord ord' ordp ordp',
  db_ok db -> db_ok db' -> config_ok cfg -> same_choice fnm cfg db cfg db' ->
  any_order ord -> any_order ord' -> any_order ordp -> any_order ordp' ->
  same_plan (plan_db ord ordp fnm cfg db) (plan_db ord' ordp' fnm cfg db').
Proof. intros fnm cfg db db' ord ord' ordp ordp' H1 H2 H3 H4. apply plan_same; try assumption. apply same_config_refl. Qed.
Print Assumptions C122_chosen_tables.

(** C122.  So a database with more tables, whose names match no pattern, has the same plan, even if the new tables
    refer to those that are sampled. *)
Theorem C122_more_tables : forall (fnm : string -> string -> bool) cfg db db' more ord ord' ordp ordp',
  db_ok db -> db_ok db' -> config_ok cfg -> Permutation db' (db ++ more) ->
  (forall t p, In t more -> In p (c_select cfg ++ c_passthrough cfg) -> fnm (fst (tb_name t) ++ "." ++ snd (tb_name t))%string p = false) ->
  any_order ord -> any_order ord' -> any_order ordp -> any_order ordp' ->
  same_plan (plan_db ord ordp fnm cfg db) (plan_db ord' ordp' fnm cfg db').
Proof.
  intros fnm cfg db db' more ord ord' ordp ordp' H1 H2 H3 H4 H5. apply C122_chosen_tables; try assumption. eapply more_choice; eassumption.
Qed.
Print Assumptions C122_more_tables.

(** * Concrete cases: two foreign keys, two unique constraints, two targets, two ignored tables, an extra foreign key *)
Definition sdb : list table :=
  [ mkTable ("a", "child") ["id"; "pid"; "qid"; "x"] ["id"] [mkFK ["pid"] ("a", "parent") ["pid"]; mkFK ["qid"] ("a", "parent") ["pid"]] [["pid"]; ["qid"; "pid"]];
    mkTable ("a", "parent") ["pid"; "gid"] ["pid"] [mkFK ["gid"] ("b", "grp") ["gid"]] [];
    mkTable ("b", "grp") ["gid"] ["gid"] [] [];
    mkTable ("b", "codes") ["code"] ["code"] [] [] ].
Definition sdb' : list table :=
  [ mkTable ("b", "codes") ["code"] ["code"] [] [];
    mkTable ("a", "parent") ["pid"; "gid"] ["pid"] [mkFK ["gid"] ("b", "grp") ["gid"]] [];
    mkTable ("a", "child") ["id"; "pid"; "qid"; "x"] ["id"] [mkFK ["qid"] ("a", "parent") ["pid"]; mkFK ["pid"] ("a", "parent") ["pid"]] [["qid"; "pid"]; ["pid"]];
    mkTable ("b", "grp") ["gid"] ["gid"] [] [] ].
Definition scfg : config :=
  mkConfig [("a.child", [mkConstr "pid" OpGt (inl (LInt 3))]); ("b.codes", [mkConstr "code" OpLt (inl (LInt 9))])]
    ["a.child"; "a.parent"] [("a.child", tg0); ("b.grp", tg_whole)] ["z.one"; "z.two"] ["b.codes"] [("z.a", "z.b"); ("z.c", "z.d")]
    [mkExtra "a.child" ["x"] "b.grp" ["gid"]; mkExtra "a.child" ["id"] "a.parent" ["pid"]] InferNone true.
Definition scfg' : config :=
  mkConfig [("b.codes", [mkConstr "code" OpLt (inl (LInt 9))]); ("a.child", [mkConstr "pid" OpGt (inl (LInt 3))])]
    ["a.parent"; "a.child"; "a.parent"] [("b.grp", tg_whole); ("a.child", tg0)] ["z.two"; "z.one"] ["b.codes"] [("z.c", "z.d"); ("z.a", "z.b")]
    [mkExtra "a.child" ["id"] "a.parent" ["pid"]; mkExtra "a.child" ["x"] "b.grp" ["gid"]] InferNone true.

Example sdb_ok : db_ok sdb.
Proof. exact (db_okb_true sdb eq_refl). Qed.
Example C121_case : config_ok scfg /\ same_config scfg scfg' /\ same_schema sdb sdb' /\
  exists p p', plan_db idl idl xfnm scfg sdb = Ok p /\ plan_db (@rev _) (@rev _) xfnm scfg' sdb' = Ok p' /\
    dkeys (p_queries p) = ["b.codes"; "a.child"; "a.parent"; "b.grp"] /\ p = p'.
Proof.
  split; [split; apply nodupb_true; reflexivity|]. split; [|split].
  - unfold same_config. repeat match goal with |- _ /\ _ => split end; try reflexivity; try apply perm_swap; intros x; cbn; tauto.
  - exists [nth 3 sdb (mkTable ("", "") [] [] [] []); nth 1 sdb (mkTable ("", "") [] [] [] []); nth 0 sdb (mkTable ("", "") [] [] [] []); nth 2 sdb (mkTable ("", "") [] [] [] [])].
    cbn [nth sdb]. split.
    + apply NoDup_Permutation_bis; [|cbn; lia|intros t Ht; cbn in Ht |- *; tauto].
      apply (NoDup_map_inv tb_name). apply nodupb_true; reflexivity.
    + repeat (apply Forall2_cons || apply Forall2_nil); unfold same_table; repeat match goal with |- _ /\ _ => split end;
        try reflexivity; try apply perm_swap; intros x; cbn; tauto.
  - eexists. eexists. split; [vm_compute; reflexivity|]. split; [vm_compute; reflexivity|]. split; reflexivity.
Qed.

(** a.log refers to a.child, but no pattern matches it. *)
Definition smore : list table := [ mkTable ("a", "log") ["id"] [] [mkFK ["id"] ("a", "child") ["id"]] [] ].
Example C122_case : db_ok (smore ++ sdb) /\ Permutation (smore ++ sdb) (sdb ++ smore) /\
  (forall t p, In t smore -> In p (c_select scfg ++ c_passthrough scfg) -> xfnm (fst (tb_name t) ++ "." ++ snd (tb_name t))%string p = false) /\
  exists p, plan_db idl idl xfnm scfg (smore ++ sdb) = Ok p /\ length (p_queries p) = 4.
Proof.
  split; [exact (db_okb_true (smore ++ sdb) eq_refl)|]. split; [apply Permutation_app_comm|]. split.
  - intros t p [<-|[]] Hp. cbn in Hp. repeat (destruct Hp as [<-|Hp]; [reflexivity|]). destruct Hp.
  - eexists. split; [vm_compute; reflexivity|reflexivity].
Qed.
