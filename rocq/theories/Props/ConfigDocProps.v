(** Property C95: what a configuration file says is what is used. *)
From Verif Require Import Model.Base Model.Value Model.PlanModel Model.Metadata Model.Planner Model.Filters Model.Multiply Model.Materialize
  Model.Dest Model.Output Model.Config Model.PlanIO Model.ConfigIO.
From Verif Require Import Spec.ConfigDocSpec Proofs.ConfigDoc.
Open Scope string_scope.
Open Scope list_scope.

(** Every option that is given has the value that is used, every table and every list is used entirely, in order. *)
Theorem C95_used_as_written : forall d c, load_config d = Ok c -> agrees d (doc_config c).
Proof. intros d c H. exact (proj1 (good_config H)). Qed.
Print Assumptions C95_used_as_written.

(** Writing all options out gives the same configuration. *)
Theorem C95_written_in_full : forall d c, load_config d = Ok c -> load_config (plain (doc_config c)) = Ok c.
Proof. intros d c H. exact (proj2 (good_config H)). Qed.
Print Assumptions C95_written_in_full.

(** A case: /repo/subsetter.example.yaml.  As it is shipped it is rejected (there is no filter random_uuid, and the filter random_string has no
    columns); with these two mended it is accepted. *)
Definition strs (l : list string) : data := DList (map DStr l).
Definition shipped (uuid : string) (columns : dict string data) : data := DMap [
  ("source", DMap [("dialect", DStr "mysql"); ("host", DStr "my-database"); ("port", DInt 3306); ("username", DStr "my_user"); ("password", DStr "my_s3cret");
     ("session_sqls", strs ["SET @@session.max_statement_time=0"; "SET @@session.wait_timeout=28800"]); ("isolation_level", DStr "READ COMMITTED");
     ("ssl", DMap [("require", DBool true); ("client", DMap [("cert", DStr "/path/to/client.crt"); ("key", DStr "/path/to/client.key")]);
        ("server", DMap [("rootcert", DStr "/path/to/rootcert.crt"); ("verify", DStr "identity")])])]);
  ("planner", DMap [("targets", DMap [("db1.users", DMap [("amount", DInt 100)]); ("db2.gadgets", DMap [("percent", DFloat 10)])]);
     ("select", strs ["db1.*"; "db2.gadgets"; "db2.gizmos-*"]);
     ("table_constraints", DMap [("db1.user_data", DList [DMap [("column", DStr "action_date"); ("operator", DStr ">"); ("value", DStr "2023-07-01")]])]);
     ("passthrough", strs ["db1.ui_features"]);
     ("ignore_fks", DList [DMap [("src_table", DStr "db2.gizmos-foo"); ("dst_table", DStr "db2.gizmos-bar")]]);
     ("extra_fks", DList [DMap [("src_table", DStr "db2.gadgets"); ("src_columns", strs ["user_id"]); ("dst_table", DStr "db1.users"); ("dst_columns", strs ["id"])]]);
     ("infer_foreign_keys", DStr "none"); ("include_dependencies", DBool true)]);
  ("sampler", DMap [
     ("output", DMap [("mode", DStr "database"); ("dialect", DStr "mysql"); ("host", DStr "my-dest-database"); ("port", DInt 3306); ("username", DStr "my_dest_user");
        ("password", DStr "my_dest_s3cret"); ("remap", DList [DMap [("search", DStr "^(\w+)\."); ("replace", DStr "\1_out.")]]); ("conflict_strategy", DStr "error"); ("merge", DBool false)]);
     ("filters", DMap [("db1.users", DList [
        DMap [("op", DStr "null"); ("columns", strs ["big_secret"])]; DMap [("op", DStr "omit"); ("columns", strs ["extra_column"])];
        DMap [("op", DStr "constant"); ("columns", strs ["is_active"; "role"]); ("values", DList [DInt 1; DStr "admin"])];
        DMap [("op", DStr "random_int"); ("columns", strs ["test_score"]); ("low", DInt 0); ("high", DInt 100)];
        DMap ([("op", DStr "random_string"); ("alphabet", DStr "hex"); ("length", DInt 16)] ++ columns);
        DMap [("op", DStr uuid); ("columns", strs ["gizmo_uuid"])];
        DMap [("op", DStr "fake_email"); ("columns", strs ["email_address"]); ("unique", DBool true)];
        DMap [("op", DStr "plugin"); ("columns", strs ["col1"; "col2"]); ("module", DStr "fully.qualified.module"); ("class", DStr "MyFilter"); ("kwargs", DMap [("mysuffix", DStr "hello!")])]])]);
     ("multiplicity", DMap [("multiplier", DInt 10); ("ignore_tables", strs ["db1.ui_features"]); ("extra_columns", DMap [("db2.gadgets", strs ["user_id"])]);
        ("ignore_primary_key_columns", DMap [("db1.gizmo", strs ["setting_name"])])]);
     ("infer_foreign_keys", DStr "none");
     ("compact", DMap [("primary_keys", DBool false); ("auto_increment_keys", DBool false); ("columns", DMap [("db1.gizmo", strs ["extra_id"])]); ("start_key", DInt 1)])])].
Example C95_case :
  load_config (shipped "random_uuid" [("columns", strs ["token"])]) = Err LxInvalid /\ load_config (shipped "uuid" []) = Err LxInvalid /\
  match load_config (shipped "uuid" [("columns", strs ["token"])]) with
  | Ok c => option_map (fun p => (map (fun t => tg_amount (snd t)) (c_targets p), c_extra_fks p)) (sub_planner c) =
              Some ([Some 100%Z; None], [mkExtra "db2.gadgets" ["user_id"] "db1.users" ["id"]]) /\
            option_map (fun s => dget (ss_filters s) "db1.users") (sub_sampler c) =
              Some (Some (map FcSimple [SfNull ["big_secret"]; SfOmit ["extra_column"]; SfConstant ["is_active"; "role"] [VInt 1; VStr "admin"]; SfRandomInt ["test_score"] 0 100;
                SfRandomString ["token"] 16 "hex" None; SfUuid ["gizmo_uuid"]; SfFake "fake_email" ["email_address"] true; SfPlugin ["col1"; "col2"] "fully.qualified.module" "MyFilter"]))
  | Err _ => False
  end.
Proof. vm_compute. repeat split. Qed.
(** Flags and numbers in quotation marks and the like; the values that tables are searched for stay what they are. *)
Example C95_loosely :
  match load_config (DMap [("source", DMap [("port", DStr "3306")]);
    ("planner", DMap [("select", strs ["s.*"]); ("include_dependencies", DStr "OFF");
      ("targets", DMap [("s.a", DMap [("amount", DFloat 10); ("in", DMap [("id", DList [DStr "3306"; DInt 7])])])])])]) with
  | Ok c => dc_port (sub_source c) = Some 3306%Z /\
      option_map (fun p => (c_include_deps p, map (fun t => (tg_amount (snd t), tg_in (snd t))) (c_targets p))) (sub_planner c) =
        Some (false, [(Some 10%Z, [("id", [LStr "3306"; LInt 7])])])
  | Err _ => False
  end.
Proof. vm_compute. repeat split. Qed.
