(** Property C30: a plan survives being written to a file and read back.  [set] tells which fields holding their default value were set
    explicitly (and are therefore written); the theorems hold for all answers. *)
From Coq Require Import Permutation.
From Verif Require Import Model.Base Model.Value Model.PlanModel Model.Metadata Model.Planner Model.Config Model.PlanIO.
From Verif Require Import Spec.PlanIOSpec Proofs.BaseFacts Proofs.PlanIOFacts Proofs.PlanIOPlanner.
From Verif Require Props.PlannerProps.
Open Scope string_scope.
Open Scope list_scope.

(** C30: the planner's plans, written by 'subsetter plan' and read by 'subsetter sample'.  The queries are a dict: their order in the file
    is that of their names. *)
Theorem C30_plan_file : forall ord ordp fnm cfg db p set, plan_db ord ordp fnm cfg db = Ok p ->
  exists p', load_plan (sort_keys (dump_plan set p)) = Ok p' /\ Permutation (p_queries p) (p_queries p') /\ NoDup (dkeys (p_queries p')) /\
    p_passthrough p = p_passthrough p'.
Proof. exact plan_file. Qed.
(** ... and every plan, even one edited by hand, whatever the order of keys in the file. *)
Theorem C30_any_plan : forall p set file, like file (dump_plan set p) -> exists p', load_plan file = Ok p' /\ same_plan p p'.
Proof. exact load_dump. Qed.
Theorem C30_sorted_file : forall d, like (sort_keys d) d.
Proof. exact sort_keys_like. Qed.
(** The reader's fuel suffices for every file. *)
Theorem C30_no_fuel : forall d, load_plan d <> Err LxFuel.
Proof. exact load_plan_fuel. Qed.
Print Assumptions C30_plan_file.
Print Assumptions C30_any_plan.
Print Assumptions C30_sorted_file.
Print Assumptions C30_no_fuel.

(** ** Cases *)
(** The planner's plan of Props/PlannerProps.v, writing only what must be written. *)
Example C30_case : PlannerProps.plan_of PlannerProps.cfgA <> mkPlan [] [] /\
  match load_plan (sort_keys (dump_plan (fun _ => false) (PlannerProps.plan_of PlannerProps.cfgA))) with
  | Ok p' => dkeys (p_queries p') = ["a.child"; "a.parent"; "b.codes"; "b.grp"] /\ dget (p_queries p') "a.child" = dget (p_queries (PlannerProps.plan_of PlannerProps.cfgA)) "a.child"
  | Err _ => False
  end.
Proof. vm_compute. split; [discriminate|]. split; reflexivity. Qed.
Definition hand : plan := mkPlan [("s.a", mkQuery None None (Some (SUnion [
    Sel (Some ["x"]) (mkIdent "s" "a" false) (Some (WOr [WInStmt ["x"] (SSelect (Sel None (mkIdent "s" "b" true) None (Some 3%Z) (Some [mkJoin (mkIdent "s" "c" true) ["i"] ["j"] false]) true)) true;
      WSQL "x = :v AND y = :u" (Some [("v", LInt 1); ("u", LStr "q")]); WAnd [WOp OpNotLike "x" (LStr "%"); WInVals ["x"; "y"] [[LInt 1; LFloat 2]] false; WRandom (1#3)]])) None None false;
    Sel None (mkIdent "s" "a" false) None None None false])));
  ("s.b", mkQuery (Some "SELECT 1") (Some []) None)] [].
Example C30_hand_case : forall b, load_plan (dump_plan (fun _ => b) hand) = Ok hand /\
  dump_plan (fun _ => b) hand <> sort_keys (dump_plan (fun _ => b) hand).
Proof. intros []; vm_compute; (split; [reflexivity|discriminate]). Qed.
(** A file that is not a plan is rejected. *)
Example C30_reject : load_plan (DMap [("queries", DMap [("s.a", DMap [("statement", DMap [("type", DStr "delete")])])])]) = Err LxInvalid.
Proof. reflexivity. Qed.
