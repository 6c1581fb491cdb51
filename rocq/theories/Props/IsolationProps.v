(** Property C114: isolation levels above READ COMMITTED. *)
From Verif Require Import Model.Base Model.Value Model.Names Model.PlanModel Model.SqlAlgebra Model.Metadata Model.Planner Model.Output Model.Sampler Model.Live Model.Config Model.Isolation.
From Verif Require Import Spec.GraphSpec Spec.SchemaSpec Spec.SqlSem Spec.PlannerSpec Spec.OutputSpec Spec.SampleSpec Spec.RunSpec Spec.WholeSpec Spec.LiveSpec Spec.ConfigSpec.
From Verif Require Import Proofs.BaseFacts Proofs.NameFacts Proofs.IsolationFacts.
From Verif Require Props.PlannerProps Props.WholeRunProps.
From Verif Require Import Props.LiveProps.
From Verif Require Import Model.Dest.
Open Scope string_scope.
Open Scope list_scope.
Open Scope nat_scope.

Section Props.
Context {G : Type}.
Variables (E : env G) (raw : (tname -> list row) -> string -> option (dict string lit) -> list row) (cfg : sampler_config) (p : plan).
(** The process environment, the configured source and its connection. *)
Variables (getenv : string -> option string) (to_int : string -> option Z) (s : database_config) (conn : engine).
Hypothesis Hconn : database_engine getenv to_int s (Some "SUBSET_SOURCE_") = Ok conn.
(** What is committed when each statement of the run begins; [m] statements fill temporary tables. *)
Variables (m : nat) (committed : nat -> tname -> list row).
Notation sees := (seen_by conn m committed).

(** C114, PostgreSQL.  The run does what it does on the database as it was when its first statement began. *)
Theorem C114_one_state : file_setting (dc_dialect s) (getenv "SUBSET_SOURCE_DIALECT") "postgres" ->
  set_to (dc_isolation s) "REPEATABLE READ" \/ set_to (dc_isolation s) "SERIALIZABLE" ->
  forall truncate create g w,
    sample_live E sees raw cfg p truncate create g w = sample (reading_from E raw (committed 0)) cfg p truncate create g w.
Proof. exact (one_state E raw cfg p Hconn m committed). Qed.
(** So foreign keys hold. *)
Theorem C114_consistent : file_setting (dc_dialect s) (getenv "SUBSET_SOURCE_DIALECT") "postgres" ->
  set_to (dc_isolation s) "REPEATABLE READ" \/ set_to (dc_isolation s) "SERIALIZABLE" ->
  forall c pcfg w truncate create g w' g', live_setup E committed raw cfg c p pcfg w -> sample_live E sees raw cfg p truncate create g w = (w', Ok g') ->
  forall n fk n' nd', considered (en_fnm E) pcfg (en_source_schema E) n fk -> copied_pair E cfg c p w w' truncate n fk n' nd' ->
    fk_holds (en_cmp E) fk (rows_of (w_dest w') n') (rows_of (w_dest w') nd').
Proof. exact (@one_state_consistent G E raw cfg p getenv to_int s "SUBSET_SOURCE_" conn Hconn m committed). Qed.

(** C114, MySQL.  What is missing: tables whose sample other queries read; see below. *)
Theorem C114_mysql_partial : file_setting (dc_dialect s) (getenv "SUBSET_SOURCE_DIALECT") "mysql" -> set_to (dc_isolation s) "REPEATABLE READ" ->
  forall c pcfg w truncate create g w' g' l, live_setup E committed raw cfg c p pcfg w -> read_by_others (p_queries p) l -> length l = m ->
  sample_live E sees raw cfg p truncate create g w = (w', Ok g') ->
  forall n fk n' nd', considered (en_fnm E) pcfg (en_source_schema E) n fk -> copied_pair E cfg c p w w' truncate n fk n' nd' ->
    ~ In n l -> ~ In (fk_dst fk) l ->
    fk_holds (en_cmp E) fk (rows_of (w_dest w') n') (rows_of (w_dest w') nd').
Proof. exact (@others_consistent G E raw cfg p getenv to_int s "SUBSET_SOURCE_" conn Hconn m committed). Qed.
End Props.
Print Assumptions C114_one_state.
Print Assumptions C114_consistent.
Print Assumptions C114_mysql_partial.

(** ** Cases: the runs of Props/LiveProps.v at REPEATABLE READ. *)
Definition isource (dialect : string) : database_config :=
  mkDatabase (Some dialect) None None None None None [] [] (Some "REPEATABLE READ") (mkSsl None None None None None).
Definition ienv (n : string) : option string := None.
Definition iconn (dialect : string) : engine :=
  match database_engine ienv (fun _ => Some 0%Z) (isource dialect) (Some "SUBSET_SOURCE_") with
  | Ok g => g
  | Err _ => mkEngine (mkUrl "" None None None None None []) "" NoArgs []
  end.
Notation fk1 := (mkFK ["pid"] ("a", "parent") ["pid"]).
Notation fk2 := (mkFK ["gid"] ("b", "grp") ["gid"]).

(** The tables whose samples are read, computed. *)
Definition sampled_ids (queries : dict string table_query) : list tname :=
  flat_map (fun q => map i_name (filter i_sampled (query_ids (snd q)))) queries.
Lemma sampled_ids_reads queries d : (forall q, In q queries -> exists n, named (fst q) n) ->
  (exists n, reads_sample queries n d) <-> In d (sampled_ids queries).
Proof.
  intros Hn. unfold sampled_ids. rewrite in_flat_map. split.
  - intros (n & s & q & id & Hin & _ & Hid & Hs & <-). exists (s, q). split; [exact Hin|]. apply in_map. apply filter_In. auto.
  - intros ([s q] & Hin & Hd). apply in_map_iff in Hd. destruct Hd as (id & <- & Hf). apply filter_In in Hf. destruct Hf as [Hid Hs].
    destruct (Hn _ Hin) as (n & Hnm). exists n, s, q, id. auto.
Qed.
Lemma i_readP : read_by_others (p_queries planP) [].
Proof.
  split; [constructor|]. intros n. rewrite sampled_ids_reads.
  - split; [intros []|]. intros [_ H]. vm_compute in H. exact H.
  - intros q Hq. vm_compute in Hq. destruct Hq as [<-|[<-|[]]]; eexists; apply parse_named; reflexivity.
Qed.

(** C114, PostgreSQL: rows that are removed after the first statement are copied nevertheless, with what they refer to. *)
Definition iremoved (dialect : string) := sample_live lenv (seen_by (iconn dialect) 1 (lhist lfirst lshrunk)) lraw lcfg lplan true false tt lbefore.
Example C114_case : database_engine ienv (fun _ => Some 0%Z) (isource "postgres") (Some "SUBSET_SOURCE_") = Ok (iconn "postgres") /\
  file_setting (dc_dialect (isource "postgres")) (ienv "SUBSET_SOURCE_DIALECT") "postgres" /\ set_to (dc_isolation (isource "postgres")) "REPEATABLE READ" /\
  live_setup lenv (lhist lfirst lshrunk) lraw lcfg WholeRunProps.wout lplan PlannerProps.cfgA lbefore /\
  snd (iremoved "postgres") = Ok tt /\ rows_of (w_dest (fst (iremoved "postgres"))) ("c", "elders") = [ [("pid", VInt 10); ("gid", VInt 100)] ] /\
  rows_of (w_dest (fst (iremoved "postgres"))) ("b", "grp") = [ [("gid", VInt 100)] ] /\
  copied_pair lenv lcfg WholeRunProps.wout lplan lbefore (fst (iremoved "postgres")) true ("a", "parent") fk2 ("c", "elders") ("b", "grp").
Proof.
  split; [reflexivity|]. split; [left; split; [reflexivity|discriminate]|]. split; [split; [reflexivity|discriminate]|]. split; [apply l_setup; vm_compute; tauto|].
  split; [vm_compute; reflexivity|]. split; [vm_compute; reflexivity|]. split; [vm_compute; reflexivity|]. apply l_pair. vm_compute. reflexivity.
Qed.

(** MySQL, tables passed through: rows that were added meanwhile are copied together with what they refer to, or not at all. *)
Definition iadded := sample_live lenv (seen_by (iconn "mysql") 0 (lhist lfirst lgrown)) lraw lcfg planP true false tt lbefore.
Example C114_mysql_case : file_setting (dc_dialect (isource "mysql")) (ienv "SUBSET_SOURCE_DIALECT") "mysql" /\ set_to (dc_isolation (isource "mysql")) "REPEATABLE READ" /\
  database_engine ienv (fun _ => Some 0%Z) (isource "mysql") (Some "SUBSET_SOURCE_") = Ok (iconn "mysql") /\
  live_setup lenv (lhist lfirst lgrown) lraw lcfg WholeRunProps.wout planP pcfgP lbefore /\ read_by_others (p_queries planP) [] /\ snd iadded = Ok tt /\
  length (rows_of (w_dest (fst iadded)) ("c", "elders")) = 2 /\ length (rows_of (w_dest (fst iadded)) ("b", "grp")) = 2 /\
  copied_pair lenv lcfg WholeRunProps.wout planP lbefore (fst iadded) true ("a", "parent") fk2 ("c", "elders") ("b", "grp").
Proof.
  split; [left; split; [reflexivity|discriminate]|]. split; [split; [reflexivity|discriminate]|]. split; [reflexivity|]. split; [exact p_setup|]. split; [exact i_readP|].
  split; [vm_compute; reflexivity|]. split; [vm_compute; reflexivity|]. split; [vm_compute; reflexivity|]. apply p_pair. vm_compute. reflexivity.
Qed.

(** Not in general on MySQL.  a.child is the target, its parents are sampled for it, and their groups for them: the samples of
    a.child and a.parent go to temporary tables.  Between the statements that fill them an index on the second, for its column
    gid, is created, which ends the transaction; then a child and its parent are removed. *)
Definition pcfgQ : config := PlannerProps.xcfg [("a.child", PlannerProps.tg_whole)] [].
Definition planQ : plan := PlannerProps.plan_of pcfgQ.
Definition iended := sample_live lenv (seen_by (iconn "mysql") 2 (lhist lfirst lshrunk)) lraw lcfg planQ true false tt lbefore.
Lemma i_readQ : read_by_others (p_queries planQ) [("a", "child"); ("a", "parent")].
Proof.
  split; [repeat constructor; cbn; intuition discriminate|]. intros n. rewrite sampled_ids_reads.
  - split.
    + intros [<-|[<-|[]]]; (split; [|vm_compute; tauto]); [exists "a.child"|exists "a.parent"]; (split; [apply parse_named; reflexivity|vm_compute; tauto]).
    + intros [_ H]. vm_compute in H. vm_compute. tauto.
  - intros q Hq. vm_compute in Hq. destruct Hq as [<-|[<-|[<-|[<-|[]]]]]; eexists; apply parse_named; reflexivity.
Qed.
Lemma q_setup : live_setup lenv (lhist lfirst lshrunk) lraw lcfg WholeRunProps.wout planQ pcfgQ lbefore.
Proof.
  destruct WholeRunProps.C87_hypotheses as (H1 & _ & H3 & Hr & H5 & H6 & H7 & _).
  assert (Hk : forall k, In (lhist lfirst lshrunk k) [lfirst; lgrown; lshrunk]) by (intros [|k]; vm_compute; tauto).
  split; [exact H1|]. split.
  { intros k. split; [split; repeat constructor; intros []|]. split; [intros x []|]. split; [exact PlannerProps.xdb_ok|]. split.
    - intros n g t c (s & [E|[]] & _) _ Hc. inversion E; subst s g. exfalso. destruct Hc as [(x & [])|(x & [])].
    - split; [exists PlannerProps.idl, PlannerProps.idl; split; [apply PlannerProps.idl_any|]; split; [apply PlannerProps.idl_any|vm_compute; reflexivity]|].
      split; [exact (l_source_ok _ (Hk k))|]. intros s _. apply eqb_true. reflexivity. }
  split; [exact H3|]. split; [reflexivity|]. split; [destruct Hr as [_ _ W1 W2 _ _]; split; [exact W1|split; [exact W2|intros n s _; apply eqb_true]]|]. split; [reflexivity|]. split; [exact H6|]. split; [exact H7|].
  split; [intros k; exact (l_consistent _ _ _ (Hk k))|intros n g (s & [E|[]] & _) _; inversion E; reflexivity].
Qed.
Lemma q_pair w' : ds_tables (w_dest w') = WholeRunProps.wtables ->
  copied_pair lenv lcfg WholeRunProps.wout planQ lbefore w' true ("a", "child") fk1 ("a", "child") ("c", "elders").
Proof.
  intros Hw. exists "a.child", "a.parent". split; [vm_compute; tauto|]. split; [vm_compute; tauto|]. split; [apply parse_named; reflexivity|]. split; [apply parse_named; reflexivity|].
  split; [apply parse_named; reflexivity|]. split; [apply parse_named; reflexivity|]. rewrite Hw. split; [eexists; split; [left; reflexivity|reflexivity]|].
  split; [eexists; split; [right; left; reflexivity|reflexivity]|]. split; [left; reflexivity|]. split; [left; reflexivity|]. split; intros k _; (split; [intros f []|reflexivity]).
Qed.
Theorem C114_mysql_refuted : exists (E : env unit) raw cfg c p pcfg getenv to_int s conn committed l w w' n fk n' nd',
  database_engine getenv to_int s (Some "SUBSET_SOURCE_") = Ok conn /\ dc_dialect s = Some "mysql" /\ dc_isolation s = Some "REPEATABLE READ" /\
  live_setup E committed raw cfg c p pcfg w /\ read_by_others (p_queries p) l /\
  sample_live E (seen_by conn (length l) committed) raw cfg p true false tt w = (w', Ok tt) /\
  considered (en_fnm E) pcfg (en_source_schema E) n fk /\ copied_pair E cfg c p w w' true n fk n' nd' /\
  ~ fk_holds (en_cmp E) fk (rows_of (w_dest w') n') (rows_of (w_dest w') nd').
Proof.
  exists lenv, lraw, lcfg, WholeRunProps.wout, planQ, pcfgQ, ienv, (fun _ => Some 0%Z), (isource "mysql"), (iconn "mysql"), (lhist lfirst lshrunk),
    [("a", "child"); ("a", "parent")], lbefore, (fst iended), ("a", "child"), fk1, ("a", "child"), ("c", "elders").
  split; [reflexivity|]. split; [reflexivity|]. split; [reflexivity|]. split; [exact q_setup|]. split; [exact i_readQ|]. split; [vm_compute; reflexivity|].
  split; [apply PlannerProps.x_fk1|]. split; [apply q_pair; vm_compute; reflexivity|].
  intros H. destruct (H [("pid", VInt 10); ("id", VInt 1); ("note", VNull)]) as (r' & Hr' & Href); [vm_compute; tauto|intros k [<-|[]] F; discriminate F|].
  inversion Href as [|? ? ? ? (_ & _ & He) _]; subst. vm_compute in Hr'. destruct Hr' as [<-|[]]. vm_compute in He. discriminate He.
Qed.
Print Assumptions C114_mysql_refuted.
