(** Properties C71 to C76, C84 and C85: configuration and connections.  [getenv] is the process environment and [to_int] Python's [int()] on
    strings; both are arbitrary. *)
From Coq Require Import Lia.
From Verif Require Import Model.Base Model.Config Spec.ConfigSpec Proofs.BaseFacts Proofs.ConfigFacts Proofs.ConnectFacts.
Open Scope string_scope.
Open Scope list_scope.

Section Props.
Variable getenv : string -> option string.
Variable to_int : string -> option Z.

(** C71.  What is missing: for MySQL the configured database is not part of the URL. *)
Theorem C71_precedence_partial : forall dialect e host port database username password, to_int "0" = Some 0%Z ->
  let env n := getenv (e ++ n)%string in
  let result := database_url getenv to_int dialect (Some e) host port database username password in
  exists d, resolved dialect (env "DIALECT") (Some "mysql") (Some d) /\
    ((exists u, result = Ok u) <-> In d ["mysql"; "postgres"; "sqlite"] /\ (unset_port port -> forall s, env "PORT" = Some s -> exists z, to_int s = Some z)) /\
    forall u, result = Ok u ->
      (d = "sqlite" -> u_driver u = "sqlite" /\ resolved database (env "DATABASE") None (u_database u)) /\
      (d <> "sqlite" -> u_driver u = driver_of d /\ resolved host (env "HOST") (Some "localhost") (u_host u) /\
         (exists z, u_port u = Some z /\ resolved_port to_int port (env "PORT") (default_port d) z) /\
         resolved username (env "USERNAME") None (u_username u) /\ resolved password (env "PASSWORD") None (u_password u)) /\
      (d = "postgres" -> exists x, resolved database (env "DATABASE") None x /\ named_only x (u_database u)) /\
      (d = "mysql" -> u_database u = None).
Proof. intros dialect e host port database username password H. exact (url_spec getenv H dialect e host port database username password). Qed.

(** [resolved] leaves no freedom. *)
Theorem C71_resolved_unique : forall configured environment default r1 r2,
  resolved configured environment default r1 -> resolved configured environment default r2 -> r1 = r2.
Proof. intros until r2. intros H1 H2. exact (resolved_det H1 H2). Qed.

(** C72 *)
Theorem C72_tls : forall ssl dialect e,
  let env n := getenv (e ++ n)%string in
  (~ tls_required getenv e ssl -> get_connect_args getenv ssl dialect (Some e) = Ok NoArgs) /\
  (tls_required getenv e ssl ->
    (dialect = "postgres" -> exists a verify, get_connect_args getenv ssl dialect (Some e) = Ok (PgArgs a) /\ verifies getenv e ssl verify /\
       (forall v, dget a "sslmode" = Some v <-> v = sslmode_of verify) /\
       (forall v, dget a "sslcert" = Some v <-> file_setting (ssl_cert ssl) (env "SSL_CLIENT_CERT") v) /\
       (forall v, dget a "sslkey" = Some v <-> file_setting (ssl_key ssl) (env "SSL_CLIENT_KEY") v) /\
       (forall v, dget a "sslrootcert" = Some v <-> file_setting (ssl_rootcert ssl) (env "SSL_SERVER_ROOTCERT") v) /\
       (forall k v, dget a k = Some v -> In k ["sslmode"; "sslcert"; "sslkey"; "sslrootcert"])) /\
    (dialect = "mysql" -> exists a verify, get_connect_args getenv ssl dialect (Some e) = Ok (MyArgs a) /\ verifies getenv e ssl verify /\
       (forall b, dget a (fst (verify_flag verify)) = Some b <-> b = ABool (snd (verify_flag verify))) /\
       (forall v, dget a "cert" = Some v <-> exists f, v = AStr f /\ file_setting (ssl_cert ssl) (env "SSL_CLIENT_CERT") f) /\
       (forall v, dget a "key" = Some v <-> exists f, v = AStr f /\ file_setting (ssl_key ssl) (env "SSL_CLIENT_KEY") f) /\
       (forall v, dget a "ca" = Some v <-> exists f, v = AStr f /\ file_setting (ssl_rootcert ssl) (env "SSL_SERVER_ROOTCERT") f) /\
       (forall k v, dget a k = Some v -> In k [fst (verify_flag verify); "cert"; "key"; "ca"])) /\
    (dialect <> "postgres" -> dialect <> "mysql" -> get_connect_args getenv ssl dialect (Some e) = Err UxValueError)).
Proof. exact (tls_spec getenv). Qed.

(** C73.  What is missing: a dialect named only in the environment, other than MySQL. *)
Theorem C73_args_fit_partial : forall c e g, to_int "0" = Some 0%Z -> database_engine getenv to_int c (Some e) = Ok g ->
  ((exists d, set_to (dc_dialect c) d) \/ getenv (e ++ "DIALECT")%string = None \/ getenv (e ++ "DIALECT")%string = Some "mysql") ->
  args_fit (u_driver (eg_url g)) (eg_args g).
Proof. intros c e g H H1 H2. exact (args_fit_partial H H1 H2). Qed.

(** C84.  What is missing: PostgreSQL with TLS; sqlite with attached files, TLS or the default isolation level. *)
Theorem C84_environment_dialect_partial : forall c e d, unset (dc_dialect c) -> getenv (e ++ "DIALECT")%string = Some d ->
  (d = "mysql" \/ (d = "postgres" /\ ~ tls_required getenv e (dc_ssl c)) \/
   (d = "sqlite" /\ ~ tls_required getenv e (dc_ssl c) /\ dc_sqlite c = [] /\ exists i, set_to (dc_isolation c) i)) ->
  database_engine getenv to_int c (Some e) = database_engine getenv to_int (with_dialect c d) (Some e).
Proof. intros c e d H1 H2 H3. exact (env_dialect_partial to_int H1 H2 H3). Qed.

(** C85 *)
Theorem C85_attached_files : forall c e g, database_engine getenv to_int c e = Ok g ->
  exists attach, eg_session g = attach ++ dc_session_sqls c /\
    (dc_dialect c = Some "sqlite" -> Forall2 (fun kv s => exists t, s = ("ATTACH DATABASE '" ++ t ++ "' as " ++ fst kv)%string /\ literal t (snd kv)) (dc_sqlite c) attach) /\
    (dc_dialect c <> Some "sqlite" -> attach = []).
Proof. exact (@session_spec getenv to_int). Qed.
(** ... and a literal has one meaning. *)
Theorem C85_literal_functional : forall t v v', literal t v -> literal t v' -> v = v'.
Proof. exact literal_functional. Qed.
End Props.

(** C71: a MySQL configuration naming its database. *)
Theorem C71_precedence_refuted : exists getenv to_int database u,
  database_url getenv to_int (Some "mysql") (Some "SUBSET_SOURCE_") None None database None None = Ok u /\ set_to database "shop" /\
  ~ resolved database (getenv "SUBSET_SOURCE_DATABASE") None (u_database u).
Proof.
  exists (fun _ => None), (fun _ => Some 0%Z), (Some "shop"). eexists. split; [reflexivity|]. split; [split; [reflexivity|discriminate]|].
  intros (H & _). assert (S : set_to (Some "shop") "shop") by (split; [reflexivity|discriminate]). specialize (H "shop" S). discriminate H.
Qed.

(** C73: PostgreSQL selected by the environment gets MySQL's arguments. *)
Theorem C73_args_fit_refuted : exists getenv to_int c g, to_int "0" = Some 0%Z /\ database_engine getenv to_int c (Some "SUBSET_SOURCE_") = Ok g /\
  getenv "SUBSET_SOURCE_DIALECT" = Some "postgres" /\ u_driver (eg_url g) = "postgresql+psycopg2" /\ ~ args_fit (u_driver (eg_url g)) (eg_args g).
Proof.
  exists (fun n => if String.eqb n "SUBSET_SOURCE_DIALECT" then Some "postgres" else None), (fun _ => Some 0%Z),
    (mkDatabase None None None None None None [] [] None (mkSsl (Some (Some true)) None None None None)). eexists.
  split; [reflexivity|]. split; [reflexivity|]. split; [reflexivity|]. split; [reflexivity|]. intros H. discriminate.
Qed.

(** C84: sqlite selected by the environment attaches nothing and asks for another isolation level. *)
Theorem C84_environment_dialect_refuted : exists getenv to_int c g g', getenv "SUBSET_SOURCE_DIALECT" = Some "sqlite" /\ dc_dialect c = None /\
  database_engine getenv to_int c (Some "SUBSET_SOURCE_") = Ok g /\
  database_engine getenv to_int (with_dialect c "sqlite") (Some "SUBSET_SOURCE_") = Ok g' /\
  eg_url g = eg_url g' /\ eg_session g = [] /\ eg_session g' = ["ATTACH DATABASE 'it''s.db' as main2"] /\ eg_isolation g <> eg_isolation g'.
Proof.
  exists (fun n => if String.eqb n "SUBSET_SOURCE_DIALECT" then Some "sqlite" else None), (fun _ => Some 0%Z),
    (mkDatabase None None None None None None [] [("main2", "it's.db")] None (mkSsl None None None None None)). do 2 eexists.
  repeat (split; [reflexivity|]). discriminate.
Qed.

(** C74.  [objs] lists the objects there are (the graph is finite); the search ends within one step for each. *)
Theorem C74_search : forall heap root objs, (forall v, reachable heap root v -> In v objs) ->
  exists l, (forall fuel, length objs < fuel -> pydantic_search heap fuel root = Some l) /\ NoDup l /\
    (forall v, In v l <-> reachable heap root v /\ is_model heap v) /\ (is_model heap root -> hd_error l = Some root).
Proof. exact search_spec. Qed.

(** C75.  For every path, the last file that is not silent about it decides. *)
Theorem C75_last_file_decides : forall pre f post p, Forall well_formed (pre ++ f :: post) -> Forall (fun g => silent g p) post ->
  let result := config_data (pre ++ f :: post) in
  (forall v, at_path f p = Some v -> ~ mapping v -> at_path result p = Some v) /\
  (forall v, at_path f p = Some v -> mapping v -> exists v', at_path result p = Some v' /\ mapping v') /\
  (cuts f p -> at_path result p = None).
Proof. exact config_last. Qed.
Theorem C75_unmentioned : forall files p, Forall well_formed files -> Forall (fun g => silent g p) files -> p <> [] ->
  at_path (config_data files) p = None.
Proof. exact config_silent. Qed.
(** A file that does not define a path is silent about it or cuts it off. *)
Theorem C75_cases : forall d p, at_path d p = None -> silent d p \/ cuts d p.
Proof. exact silent_or_cuts. Qed.
Theorem C75_empty_mapping : forall d, mapping d -> dict_merge d (DMap []) = d.
Proof. exact merge_empty. Qed.

(** C76 *)
Theorem C76_extra_fks : forall src dst, check_columns_match src dst = Some tt <-> src <> [] /\ length src = length dst /\ NoDup src /\ NoDup dst.
Proof. exact check_columns_spec. Qed.

Print Assumptions C71_precedence_partial.
Print Assumptions C71_resolved_unique.
Print Assumptions C71_precedence_refuted.
Print Assumptions C72_tls.
Print Assumptions C73_args_fit_partial.
Print Assumptions C73_args_fit_refuted.
Print Assumptions C74_search.
Print Assumptions C75_last_file_decides.
Print Assumptions C75_unmentioned.
Print Assumptions C75_cases.
Print Assumptions C75_empty_mapping.
Print Assumptions C76_extra_fks.
Print Assumptions C84_environment_dialect_partial.
Print Assumptions C84_environment_dialect_refuted.
Print Assumptions C85_attached_files.
Print Assumptions C85_literal_functional.

(** ** Cases *)
Definition shell (n : string) : option string :=
  if String.eqb n "SUBSET_SOURCE_DIALECT" then Some "postgres" else if String.eqb n "SUBSET_SOURCE_HOST" then Some "db"
  else if String.eqb n "SUBSET_SOURCE_PORT" then Some "7" else if String.eqb n "SUBSET_SOURCE_DATABASE" then Some "env"
  else if String.eqb n "SUBSET_SOURCE_SSL_REQUIRE" then Some "1" else if String.eqb n "SUBSET_SOURCE_SSL_SERVER_VERIFY" then Some "cert"
  else if String.eqb n "SUBSET_SOURCE_SSL_CLIENT_KEY" then Some "k.pem" else None.
Definition digits (s : string) : option Z := if String.eqb s "7" then Some 7%Z else if String.eqb s "0" then Some 0%Z else None.
Example C71_case : digits "0" = Some 0%Z /\
  database_url shell digits None (Some "SUBSET_SOURCE_") None None (Some "shop") (Some "me") None =
    Ok (mkUrl "postgresql+psycopg2" (Some "db") (Some 7%Z) (Some "shop") (Some "me") None []) /\
  database_url shell digits (Some "mysql") (Some "SUBSET_DESTINATION_") None None None (Some "me") None =
    Ok (mkUrl "mysql+pymysql" (Some "localhost") (Some 3306%Z) None (Some "me") None [("charset", "utf8mb4")]) /\
  database_url shell digits (Some "oracle") (Some "SUBSET_SOURCE_") None None None None None = Err UxValueError.
Proof. vm_compute. repeat split; reflexivity. Qed.
Example C72_case : tls_required shell "SUBSET_SOURCE_" (mkSsl None (Some "c.pem") None None None) /\
  get_connect_args shell (mkSsl None (Some "c.pem") None None None) "postgres" (Some "SUBSET_SOURCE_") =
    Ok (PgArgs [("sslcert", "c.pem"); ("sslkey", "k.pem"); ("sslmode", "verify-ca")]) /\
  get_connect_args shell (mkSsl (Some (Some true)) None None (Some "root.pem") (Some "identity")) "mysql" (Some "SUBSET_DESTINATION_") =
    Ok (MyArgs [("ca", AStr "root.pem"); ("verify_identity", ABool true)]) /\
  ~ tls_required shell "SUBSET_SOURCE_" (mkSsl (Some (Some false)) None None None None).
Proof.
  split; [right; split; [reflexivity|exists "1"; split; [reflexivity|discriminate]]|]. split; [reflexivity|]. split; [reflexivity|].
  intros [H|(H & _)]; discriminate.
Qed.
Example C73_case : exists g, database_engine shell digits (mkDatabase (Some "mysql") None None None None None ["SET x = 1"] [] None (mkSsl None None None None None)) (Some "SUBSET_SOURCE_") = Ok g /\
  u_driver (eg_url g) = "mysql+pymysql" /\ eg_args g = MyArgs [("key", AStr "k.pem"); ("verify_cert", ABool true)].
Proof. eexists. split; [reflexivity|]. split; reflexivity. Qed.
(** Shared and cyclic: 0 is a model with fields 1 and 2, 1 a list holding 3, 3 and 0, 2 a dict holding 3 and 4; 3 a model, 4 a string. *)
Definition graph (v : nat) : obj :=
  match v with 0 => OModel [1; 2] | 1 => OList [3; 3; 0] | 2 => ODict [3; 4] | 3 => OModel [] | _ => OOther end.
Example C74_case : (forall v, reachable graph 0 v -> In v [0; 1; 2; 3; 4]) /\ pydantic_search graph 6 0 = Some [0; 3].
Proof.
  split; [|reflexivity]. induction 1 as [|u v _ IH (l & E & H)]; cbn; auto.
  cbn in IH. repeat (destruct IH as [<-|IH]); try tauto; cbn in E; destruct E as [E|[E|E]]; inv E; cbn in H; intuition.
Qed.
Definition file1 : data := DMap [("planner", DMap [("select", DList [DStr "a.*"]); ("ignore", DList [])]); ("source", DMap [("host", DStr "x")])].
Definition file2 : data := DMap [("planner", DMap [("select", DList [DStr "b.*"])]); ("source", DMap [("port", DInt 1)])].
Definition file3 : data := DMap [("source", DNull)].
Ltac wf := first [apply wf_map; [cbn; repeat constructor; cbn; intuition discriminate|
    let k := fresh in let v := fresh in let H := fresh in intros k v H; cbn in H; repeat (destruct H as [H|H]; [injection H as _ <-; wf|]); destruct H]
  |apply wf_other; intros (? & ?); discriminate].
Example C75_case : config_data [file1; file2] =
    DMap [("planner", DMap [("select", DList [DStr "b.*"]); ("ignore", DList [])]); ("source", DMap [("host", DStr "x"); ("port", DInt 1)])] /\
  Forall well_formed [file1; file2; file3] /\ silent file3 ["planner"; "select"] /\
  at_path (config_data [file1; file2; file3]) ["planner"; "select"] = Some (DList [DStr "b.*"]) /\
  cuts file3 ["source"; "host"] /\ at_path (config_data [file1; file2; file3]) ["source"; "host"] = None.
Proof.
  split; [reflexivity|]. split.
  { repeat (apply Forall_cons; [wf|]). apply Forall_nil. }
  split; [split; [reflexivity|]|].
  { intros [|a above] rest v E H; [inv H; eexists; reflexivity|]. inv E. discriminate. }
  split; [reflexivity|]. split; [|reflexivity]. exists ["source"], "host", [], DNull. split; [reflexivity|]. split; [reflexivity|].
  intros (? & ?). discriminate.
Qed.
(** An empty file is not an empty mapping: it replaces everything. *)
Example C75_empty_file : config_data [file1; DNull] = DNull.
Proof. reflexivity. Qed.
Example C76_case : check_columns_match ["a"; "b"] ["c"; "d"] = Some tt /\ check_columns_match ["a"; "a"] ["c"; "d"] = None /\ check_columns_match [] [] = None.
Proof. repeat split. Qed.
Example C85_case : exists g, database_engine shell digits (mkDatabase (Some "sqlite") None None None None None ["PRAGMA x"] [("o", "it's.db")] None (mkSsl (Some (Some false)) None None None None)) (Some "SUBSET_SOURCE_") = Ok g /\
  eg_session g = ["ATTACH DATABASE 'it''s.db' as o"; "PRAGMA x"].
Proof. eexists. split; reflexivity. Qed.
