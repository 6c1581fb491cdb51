(** Properties C117 and C118: the words of the command line.  Outside the program, besides what is listed in CliProps.v: which words are
    negative numbers ([argparse] takes these for values). *)
From Verif Require Import Model.Base Model.Value Model.Names Model.PlanModel Model.Metadata Model.Planner Model.Filters Model.Multiply Model.Materialize Model.Dest Model.Output Model.Sampler
  Model.Config Model.PlanIO Model.ConfigIO Model.Main Model.Args.
From Verif Require Import Spec.CliSpec Spec.ArgsSpec Spec.KeepSpec Proofs.BaseFacts Proofs.ArgsParse Proofs.KeepMain.
From Verif Require Props.CliProps Props.WholeRunProps.
From Verif Require Import Model.Dest.
Open Scope string_scope.
Open Scope list_scope.

Section Props.
Variable negative : string -> bool.
Context {G : Type}.
Variable getenv : string -> option string.
Variable to_int : string -> option Z.
Variable reachable : engine -> bool.
Variable environment : engine -> env G.
Variables (ord_graph : list string -> list string) (ord_names : list tname -> list tname) (explicit : PlanIO.path -> bool) (start : G)
  (can_open can_write : string -> bool) (partly : string -> content).
Notation main := (main getenv to_int reachable environment ord_graph ord_names explicit start can_open can_write partly).
Notation program := (program negative main).

(** C117: a command line that says something is carried out as it says; any other changes nothing and ends with status 2, unless it may
    be asking for help; if it does, the status is 0. *)
Theorem C117_command_line : forall argv s,
  (forall a, says negative argv a -> program argv s = main a s) /\
  (wants_help negative argv -> program argv s = (s, 0%Z)) /\
  ((forall a, ~ says negative argv a) -> program argv s = (s, 0%Z) /\ (exists w, In w argv /\ asks_help w) \/ program argv s = (s, 2%Z)).
Proof. exact (@program_says negative G getenv to_int reachable environment ord_graph ord_names explicit start can_open can_write partly). Qed.
(** ... and no line says two things. *)
Theorem C117_one_meaning : forall argv a a', says negative argv a -> says negative argv a' -> a = a'.
Proof. exact (@says_fun negative). Qed.

(** C118: without a word for [--truncate] nothing is deleted, without one for [--create] no table is created, whatever the configuration,
    the databases and the outcome. *)
Theorem C118_only_when_asked : forall argv s s' k, program argv s = (s', k) -> one_place same_place s ->
  exists new : list (place * event), cl_log s' = cl_log s ++ new /\
    ((forall w, In w argv -> ~ means_truncate w) -> (forall pl n, ~ In (pl, EvDelete n) new) /\
       forall pl n, added_to (exists a c, says negative argv a /\ configured s a c /\ replaces c) (rows_of (cl_places s pl) n) (rows_of (cl_places s' pl) n)) /\
    ((forall w, In w argv -> ~ means_create w) -> (forall pl ts, ~ In (pl, EvCreate ts) new) /\ forall pl, ds_tables (cl_places s' pl) = ds_tables (cl_places s pl)).
Proof. exact (@line_keeps negative G getenv to_int reachable environment ord_graph ord_names explicit start can_open can_write partly). Qed.
End Props.
Print Assumptions C117_command_line.
Print Assumptions C117_one_meaning.
Print Assumptions C118_only_when_asked.

(** ** A case *)
Definition xneg (w : string) : bool := String.eqb w "-1".
(** Letters put together, attached values, abbreviations, a negative number as a value, the last of two plans. *)
Example C117_case : says xneg ["-vvc"; "main.yaml"; "--conf=db.yaml"; "-cx y"; "sample"; "--t"; "-pa.yaml"; "--pl"; "-1"] (mkArgs ["main.yaml"; "db.yaml"; "x y"] (ASample "-1" true false)) /\
  says xneg ["sample"; "--c"] (mkArgs [] (ASample "plan.yaml" false true)) /\ says xneg ["--c"; "sample"; "sample"] (mkArgs ["sample"] (ASample "plan.yaml" false false)) /\
  says xneg ["plan"; "-o="; "-of"] (mkArgs [] (APlan (Some "f"))) /\
  Forall (fun l => forall a, ~ says xneg l a) [[]; ["-v"]; ["--config"; "plan"]; ["plan"; "--truncate"]; ["-v=c"; "x"; "plan"]; ["subset"; "x"]; ["subset"; "--"]; ["plan"; "-h"]; ["subset"; "--=x"]; ["--truncate"; "subset"]; ["sub"]].
Proof.
  split; [apply parse_says; vm_compute; reflexivity|]. split; [apply parse_says; vm_compute; reflexivity|]. split; [apply parse_says; vm_compute; reflexivity|]. split; [apply parse_says; vm_compute; reflexivity|].
  repeat constructor; intros a F; apply parse_says in F; vm_compute in F; discriminate.
Qed.
Example C117_help_case : wants_help xneg ["-vh"; "x"; "--"; "-q"] /\ wants_help xneg ["-v"; "subset"; "--create"; "--help"].
Proof.
  split.
  - left. exists ["-vh"], ([(OVerbose, ""); (OHelp, "")] ++ []), ["x"; "--"; "-q"], "". split; [reflexivity|]. split; [|split; [right; left; reflexivity|]].
    + apply (@ln_cons xneg has_value usage ["-vh"] _ [] []); [|constructor]. apply g_letters. eapply cl_flag; [cbn; auto 9|reflexivity|]. apply cl_last; [cbn; auto 9|reflexivity].
    + intros w Hw (r & F). repeat destruct Hw as [<-|Hw]; try discriminate. destruct Hw.
  - assert (Hg : forall w o, no_equals w -> In (w, o) usage_subset -> has_value o = false -> group xneg has_value usage_subset [w] [(o, "")]).
    { intros w o Hw Hin Ho. apply (@g_flag xneg has_value usage_subset w w o); [exact Hw|split; [exact Hin|left; reflexivity]|exact Ho]. }
    right. exists ["-v"], ([(OVerbose, "")] ++ []), "subset", usage_subset, (["--create"] ++ ["--help"] ++ []), ([(OCreate, "")] ++ [(OHelp, "")] ++ []), "". split; [reflexivity|].
    split; [apply (@ln_cons xneg has_value usage ["-v"] _ [] []); [|constructor]; apply g_letters; apply cl_last; [cbn; auto 9|reflexivity]|]. split; [cbn; auto|]. split; [|cbn; auto].
    constructor; [|constructor; [|constructor]]; (apply Hg; [apply ArgsFacts.split_none; reflexivity|cbn; auto 9|reflexivity]).
Qed.
(** The machine of Props/CliProps.v with a further file.  The rows that are there keep the run from writing; they are kept and others are
    added if it is told to skip rows that exist; only with [--truncate], here [--t], are they deleted. *)
Definition xskip : cli := mkCli (fun f => if String.eqb f "skip.yaml" then Some (Doc (DMap [("sampler", DMap [("output", DMap [("conflict_strategy", DStr "skip")])])])) else cl_files CliProps.xbefore f)
  (Doc DNull) [] (cl_places CliProps.xbefore) [].
Example C118_case : let run l := let '(s, k) := Args.program xneg CliProps.xmain l xskip in (k, CliProps.look s) in one_place same_place xskip /\
  CliProps.look xskip = [ [ [("pid", VNull); ("id", VInt 1); ("note", VNull)] ]; []; [ [("gid", VInt 100)] ] ] /\
  run ["-c"; "main.yaml"; "-cdb.yaml"; "subset"] = (1%Z, CliProps.look xskip) /\
  run ["-c"; "main.yaml"; "-cdb.yaml"; "--co"; "skip.yaml"; "subset"] = (0%Z, [ [ [("pid", VNull); ("id", VInt 1); ("note", VNull)] ];
    [ [("pid", VInt 10); ("gid", VInt 100)]; [("pid", VInt 20); ("gid", VInt 200)] ]; [ [("gid", VInt 100)]; [("gid", VInt 200)] ] ]) /\
  run ["-c"; "main.yaml"; "-cdb.yaml"; "subset"; "--t"] = (0%Z, [ [ [("pid", VInt 10); ("id", VInt 1); ("note", VNull)] ];
    [ [("pid", VInt 10); ("gid", VInt 100)]; [("pid", VInt 20); ("gid", VInt 200)] ]; [ [("gid", VInt 100)]; [("gid", VInt 200)] ] ]).
Proof. split; [intros p q _; reflexivity|]. vm_compute. repeat split. Qed.
