(** C120: a plan file means what it says. *)
From Coq Require Import Permutation.
From Verif Require Import Model.Base Model.Value Model.PlanModel Model.Config Model.Metadata Model.Planner Model.PlanIO.
From Verif Require Import Spec.PlanIOSpec Spec.PlanDocSpec Proofs.PlanIOFacts Proofs.PlanDoc.
Open Scope string_scope.
Open Scope list_scope.

(** What is read is what the file says, and every file that says a plan is read. *)
Theorem C120_reader : forall d p, load_plan d = Ok p <-> says_plan d p.
Proof. exact load_plan_says. Qed.
(** Every other file is rejected. *)
Theorem C120_rejected : forall d, load_plan d = Err LxInvalid <-> ~ exists p, says_plan d p.
Proof. exact load_plan_rejects. Qed.
Theorem C120_one_meaning : forall d p p', says_plan d p -> says_plan d p' -> p = p'.
Proof. exact says_plan_fun. Qed.
(** The file the planner writes says the planner's plan, however the writer sorts its keys. *)
Theorem C120_planned : forall ord ordp fnm cfg db p set, plan_db ord ordp fnm cfg db = Ok p ->
  exists p', says_plan (sort_keys (dump_plan set p)) p' /\ Permutation (p_queries p) (p_queries p') /\ NoDup (dkeys (p_queries p')) /\
    p_passthrough p = p_passthrough p'.
Proof. exact planned_says. Qed.
Theorem C120_written : forall p set file, like file (dump_plan set p) -> exists p', says_plan file p' /\ same_plan p p'.
Proof. exact dumped_says. Qed.
Print Assumptions C120_reader.
Print Assumptions C120_rejected.
Print Assumptions C120_one_meaning.
Print Assumptions C120_planned.
Print Assumptions C120_written.

(** ** Cases *)
(** A file written by hand: other names of entries, defaults, an entry nobody reads, integers as thresholds. *)
Definition by_hand : data := DMap
  [("queries", DMap
     [("s.a", DMap [("statement", DMap
        [("type_", DStr "select"); ("from_", DMap [("table_schema", DStr "s"); ("table", DStr "a")]); ("colour", DStr "red");
         ("joins", DList [DMap [("right", DMap [("schema", DStr "s"); ("table_name", DStr "b"); ("sampled", DBool true)]);
           ("left_columns", DList [DStr "b_id"]); ("right_columns", DList [DStr "id"])]]);
         ("where", DMap [("type", DStr "and"); ("conditions", DList
           [DMap [("type", DStr "operator"); ("operator", DStr "<"); ("column", DStr "n"); ("value", DInt 3)];
            DMap [("type", DStr "in"); ("columns", DList [DStr "x"; DStr "y"]); ("values", DList [DList [DInt 1; DStr "u"]]); ("negated", DBool true)];
            DMap [("type", DStr "random"); ("threshold", DInt 1)];
            DMap [("type", DStr "operator"); ("column", DStr "m"); ("value", DFloat (1#2))]])])])]);
      ("s.b", DMap [("sql", DStr "SELECT 1"); ("statement", DNull)])])].
Definition its_plan : plan := mkPlan
  [("s.a", mkQuery None None (Some (SSelect (Sel None (mkIdent "s" "a" false)
      (Some (WAnd [WOp OpLt "n" (LInt 3); WInVals ["x"; "y"] [[LInt 1; LStr "u"]] true; WRandom 1; WOp OpEq "m" (LFloat (1#2))])) None
      (Some [mkJoin (mkIdent "s" "b" true) ["b_id"] ["id"] true]) false))));
   ("s.b", mkQuery (Some "SELECT 1") None None)] [].
Example C120_case : load_plan by_hand = Ok its_plan /\ says_plan by_hand its_plan.
Proof. assert (E : load_plan by_hand = Ok its_plan) by reflexivity. split; [exact E|]. apply C120_reader. exact E. Qed.
(** Read off the file by the format alone, with no use of the reader: a statement for [s.b]. *)
Example C120_says : says_query (DMap [("sql", DStr "SELECT 1"); ("statement", DNull)]) (mkQuery (Some "SELECT 1") None None).
Proof.
  eexists. split; [reflexivity|]. cbn. split; [|split].
  - right. exists "SELECT 1", (DStr "SELECT 1"). repeat split. discriminate.
  - left. split; [left|]; reflexivity.
  - left. split; [right|]; reflexivity.
Qed.
(** Not a plan: an operator nobody knows. *)
Example C120_reject : ~ exists p, says_plan (DMap [("queries", DMap [("s.a", DMap [("statement", DMap [("type", DStr "select");
  ("from", DMap [("schema", DStr "s"); ("table", DStr "a")]); ("where", DMap [("type", DStr "operator"); ("operator", DStr "=="); ("column", DStr "n"); ("value", DInt 3)])])])])]) p.
Proof. apply C120_rejected. reflexivity. Qed.
(** Flags and numbers in quotation marks and the like. *)
Definition loosely : data := DMap [("queries", DMap [("s.a", DMap [("statement", DMap
  [("type", DStr "select"); ("from", DMap [("schema", DStr "s"); ("table", DStr "a"); ("sampled", DStr "Yes")]); ("limit", DStr "-07");
   ("joins_outer", DFloat (2#2)); ("where", DMap [("type", DStr "random"); ("threshold", DStr "0.50")])])])])].
Example C120_loosely : says_plan loosely (mkPlan
  [("s.a", mkQuery None None (Some (SSelect (Sel None (mkIdent "s" "a" true) (Some (WRandom (1#2))) (Some (-7)%Z) None true))))] []).
Proof. apply C120_reader. reflexivity. Qed.
Example C120_not_a_number : load_plan (DMap [("queries", DMap [("s.a", DMap [("statement", DMap
  [("type", DStr "select"); ("from", DMap [("schema", DStr "s"); ("table", DStr "a")]); ("limit", DFloat (3#2))])])])]) = Err LxInvalid.
Proof. reflexivity. Qed.
