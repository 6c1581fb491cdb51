(** Properties C109 and C110: runs that are repeated into the tables they have filled, after success or after an interruption. *)
From Verif Require Import Model.Base Model.Value Model.Names Model.PlanModel Model.SqlAlgebra Model.Metadata Model.Planner Model.Filters Model.Multiply Model.Materialize Model.Dest Model.Output Model.Sampler.
From Verif Require Import Spec.GraphSpec Spec.SchemaSpec Spec.SqlSem Spec.FilterSpec Spec.OutputSpec Spec.RunSpec Spec.RerunSpec Spec.ConflictSpec Spec.RepeatSpec.
From Verif Require Import Proofs.MetadataMain Proofs.SampleExamples.
From Verif Require Import Model.Dest.
From Verif Require Import Proofs.BaseFacts Proofs.NameFacts Proofs.OutputExamples Proofs.Repeat.
Open Scope string_scope.
Open Scope list_scope.

Section Props.
Context {G : Type}.
Variables (E : env G) (cfg : sampler_config) (c : db_config) (p : plan).
Notation queries := (dkeys (p_queries p)).
Notation schema w := (ds_tables (w_dest w)).
Notation rows w := (rows_of (w_dest w)).
Notation becomes := (lands (en_resub E) (oc_remap c)).

(** C109.  The first run, from [w1] to [w1'], succeeded.  Then the same is run again, without truncating, perhaps with another random
    state and at a destination [w2] where other rows were added.  However the second run ends, a table whose existing rows are left
    alone has not changed. *)
Theorem C109_repeated_skip : forall accepts currval truncate create1 create2 g1 g1' g2 w1 w1' w2 w2' r2 t n tb,
  run_ok E cfg c p (w_dest w1) -> trace w1 = [] -> sample E cfg p truncate create1 g1 w1 = (w1', Ok g1') ->
  run_ok E cfg c p (w_dest w2) -> trace w2 = [] -> sample (later E accepts currval) cfg p false create2 g2 w2 = (w2', r2) -> NoDup queries ->
  In t queries -> becomes t n -> table_of (schema w1') n tb -> table_of (schema w2) n tb ->
  not_shifted c p t -> strategy_of c p t = SSkip -> plain_keys E cfg p t n tb -> key_given tb (rows w1' n) ->
  (forall r, In r (rows w1' n) -> In r (rows w2 n)) ->
  rows w2' n = rows w2 n.
Proof. intros until tb. intros H1 H2 H3 H4 H5 H6 H7 H8 H9 H10 H11 H12 H13 H14 H15 H16. exact (repeated_skip H1 H2 H3 H4 H5 H6 H7 H8 H9 H10 H11 H12 H13 H14 H15 H16). Qed.

(** ... and if that is the strategy for all tables, no table has. *)
Theorem C109_repeated_skip_run : forall accepts currval truncate create1 create2 g1 g1' g2 w1 w1' w2 w2' r2,
  run_ok E cfg c p (w_dest w1) -> trace w1 = [] -> sample E cfg p truncate create1 g1 w1 = (w1', Ok g1') ->
  run_ok E cfg c p (w_dest w2) -> trace w2 = [] -> sample (later E accepts currval) cfg p false create2 g2 w2 = (w2', r2) -> NoDup queries ->
  oc_strategy c = SSkip -> oc_merge c = false -> schema w2 = schema w1' ->
  (forall n tb, table_of (schema w1') n tb -> forall r, In r (rows w1' n) -> In r (rows w2 n)) ->
  (forall t n tb, In t queries -> becomes t n -> table_of (schema w1') n tb -> plain_keys E cfg p t n tb /\ key_given tb (rows w1' n)) ->
  forall n tb, table_of (schema w1') n tb -> rows w2' n = rows w2 n.
Proof. intros until r2. intros H1 H2 H3 H4 H5 H6 H7 H8 H9 H10 H11 H12. exact (repeated_skip_run H1 H2 H3 H4 H5 H6 H7 H8 H9 H10 H11 H12). Qed.

(** With replacement, no row is added and the columns that filters do not touch stay the same. *)
Theorem C109_repeated_replace : forall accepts currval truncate create1 create2 g1 g1' g2 w1 w1' w2 w2' r2 t n tb,
  run_ok E cfg c p (w_dest w1) -> trace w1 = [] -> sample E cfg p truncate create1 g1 w1 = (w1', Ok g1') ->
  run_ok E cfg c p (w_dest w2) -> trace w2 = [] -> sample (later E accepts currval) cfg p false create2 g2 w2 = (w2', r2) -> NoDup queries ->
  In t queries -> becomes t n -> table_of (schema w1') n tb -> table_of (schema w2) n tb ->
  not_shifted c p t -> strategy_of c p t = SReplace -> tb_uniques tb = [] -> plain_keys E cfg p t n tb ->
  key_given tb (written (trace w1') n) -> one_row_each tb (written (trace w1') n) -> keys_unique tb (rows w2 n) ->
  (forall r, In r (rows w1' n) -> In r (rows w2 n)) ->
  Forall2 (fun r r' => forall k, plain_column E cfg p t n k -> rget r k = rget r' k) (rows w2 n) (rows w2' n).
Proof. intros until tb. intros H1 H2 H3 H4 H5 H6 H7 H8 H9 H10 H11 H12 H13 H14 H15 H16 H17 H18 H19. exact (repeated_replace H1 H2 H3 H4 H5 H6 H7 H8 H9 H10 H11 H12 H13 H14 H15 H16 H17 H18 H19). Qed.

(** C110.  A run is interrupted after the statements [tr], which lead from [w] to [d]; run again without truncating, it succeeds and
    ends at [w2].  Uninterrupted it would have ended at [wa].  A table whose existing rows are left alone has the same rows in both
    cases, in the columns that filters do not touch. *)
Theorem C110_resumed_skip : forall accepts1 currval1 accepts2 currval2 truncate create create1 create2 g g1 g2 g' g2' w wa w1 r1 tr d w2 t n tb,
  run_ok E cfg c p (w_dest w) -> trace w = [] -> NoDup queries ->
  sample E cfg p truncate create g w = (wa, Ok g') ->
  sample (later E accepts1 currval1) cfg p truncate create1 g1 w = (w1, r1) -> initial_part tr (trace w1) -> replay (en_dflt E) (w_dest w) tr d ->
  truncate = false \/ (exists e, In e tr /\ ~ preparing e) ->
  run_ok E cfg c p d -> sample (later E accepts2 currval2) cfg p false create2 g2 (mkWorld d []) = (w2, Ok g2') ->
  In t queries -> becomes t n -> table_of (schema wa) n tb -> table_of (ds_tables d) n tb ->
  not_shifted c p t -> strategy_of c p t = SSkip -> plain_keys E cfg p t n tb -> key_given tb (rows wa n) ->
  Forall2 (fun r r' => forall k, plain_column E cfg p t n k -> rget r k = rget r' k) (rows wa n) (rows w2 n).
Proof. intros until tb. intros H1 H2 H3 H4 H5 H6 H7 H8 H9 H10 H11 H12 H13 H14 H15 H16 H17 H18. exact (resumed_skip H1 H2 H3 H4 H5 H6 H7 H8 H9 H10 H11 H12 H13 H14 H15 H16 H17 H18). Qed.
End Props.
Print Assumptions C109_repeated_skip.
Print Assumptions C109_repeated_skip_run.
Print Assumptions C109_repeated_replace.
Print Assumptions C110_resumed_skip.

(** ** Cases *)
Definition skipping : db_config := mkDbConfig PostgreSQL [] SSkip false.
Definition replacing : db_config := mkDbConfig PostgreSQL [] SReplace false.
Definition two : list string := ["users"; "orders"].
Definition old_user : row := [("id", VInt 2); ("name", VStr "old")].
Definition new_user : row := [("id", VInt 7); ("name", VStr "new")].
Definition at_first : world := odest oschema [(("s", "users"), [old_user])] [].
Definition go c ts accepts w := sample (later (oenv yes none) accepts none) (ocfg c) (oplan ts) false false tt w.
(** Another row is added between the runs. *)
Definition in_between (w : world) : world := mkWorld (with_rows (w_dest w) ("s", "users") (new_user :: rows_of (w_dest w) ("s", "users"))) [].

Lemma plain_case c t n k : existsb (String.eqb t) ["s.users"; "s.orders"] = true -> results (oenv yes none) (ocfg c) (oplan two) t = results (oenv yes none) (ocfg skipping) (oplan two) t ->
  match results (oenv yes none) (ocfg skipping) (oplan two) t with Some (_, co) => memb k (co_cols co) | None => true end = true ->
  plain_column (oenv yes none) (ocfg c) (oplan two) t n k.
Proof.
  intros _ He H. split; [|split; [intros f []|reflexivity]]. intros ms compact st mults co Hcb Hr. pose proof (results_spec _ _ _ _ _ _ _ _ _ Hcb Hr) as Hres. rewrite He in Hres. rewrite Hres in H. apply memb_true in H. exact H.
Qed.

(** The user with the existing key is left out, the others and the orders are inserted; the second run changes nothing. *)
Example C109_skip_case :
  let '(w1, r1) := go skipping two yes at_first in let '(w2, r2) := go skipping two yes (in_between w1) in
  r1 = Ok tt /\ r2 = Ok tt /\ length (rows_of (w_dest w1) ("s", "users")) = 2 /\ length (rows_of (w_dest w1) ("s", "orders")) = 3 /\
  run_ok (oenv yes none) (ocfg skipping) skipping (oplan two) (w_dest at_first) /\ run_ok (oenv yes none) (ocfg skipping) skipping (oplan two) (w_dest (in_between w1)) /\
  strategy_of skipping (oplan two) "s.users" = SSkip /\ not_shifted skipping (oplan two) "s.users" /\
  plain_keys (oenv yes none) (ocfg skipping) (oplan two) "s.users" ("s", "users") users /\ key_given users (rows_of (w_dest w1) ("s", "users")) /\
  (forall r, In r (rows_of (w_dest w1) ("s", "users")) -> In r (rows_of (w_dest (in_between w1)) ("s", "users"))) /\
  length (trace w2) = length (trace w1) /\ ds_rows (w_dest w2) = ds_rows (w_dest (in_between w1)).
Proof.
  destruct (go skipping two yes at_first) as [w1 r1] eqn:H1. vm_compute in H1. injection H1 as <- <-.
  destruct (go skipping two yes (in_between _)) as [w2 r2] eqn:H2. vm_compute in H2. injection H2 as <- <-.
  split; [reflexivity|]. split; [reflexivity|]. split; [reflexivity|]. split; [reflexivity|]. split; [apply orun_ok; vm_compute; reflexivity|]. split; [apply orun_ok; vm_compute; reflexivity|].
  split; [reflexivity|]. split; [discriminate|]. split.
  { intros key k [<-|[]] [<-|[]]. apply plain_case; vm_compute; reflexivity. }
  split; [split; [discriminate|]; intros r k Hr [<-|[]]; vm_compute in Hr; repeat (destruct Hr as [<-|Hr]; [vm_compute; discriminate|]); elim Hr|].
  split; [intros r Hr; right; exact Hr|]. split; reflexivity.
Qed.
(** Without a primary key existing rows cannot be recognised: repeated, the run adds its rows once more. *)
Definition log_source (n : tname) : list row := if eqb n ("s", "ulog") then [ [("what", VStr "in"); ("uid", VInt 1)] ] else osource n.
Definition lenv : env unit :=
  Sampler.mkEnv ofilters String.eqb osub osets osets oschema log_source (fun _ c => negb (String.eqb c "name")) (fun _ => true)
    xcmp xtext xraw xraw_cols xz xrank true odflt yes (fun _ _ => false)
    (fun n => if eqb n ("s", "ulog") then None else Some "id") (fun _ c => negb (String.eqb c "name")) none 1.
Example C109_key_needed :
  let go w := sample lenv (ocfg skipping) (oplan ["users"; "ulog"]) false false tt w in
  let '(w1, r1) := go (odest oschema [] []) in let '(w2, r2) := go (mkWorld (w_dest w1) []) in
  r1 = Ok tt /\ r2 = Ok tt /\ strategy_of skipping (oplan ["users"; "ulog"]) "s.ulog" = SSkip /\ tb_pk ulog = [] /\
  rows_of (w_dest w1) ("s", "ulog") <> [] /\ rows_of (w_dest w2) ("s", "ulog") = rows_of (w_dest w1) ("s", "ulog") ++ rows_of (w_dest w1) ("s", "ulog") /\
  rows_of (w_dest w2) ("s", "users") = rows_of (w_dest w1) ("s", "users").
Proof. vm_compute. repeat split; discriminate. Qed.
Lemma unique_case t l : nodupb (map (fun r => map (rget r) (tb_pk t)) l) = true -> keys_unique t l.
Proof.
  intros H key _. apply nodupb_true in H. unfold keyed. induction l as [|r l IH]; cbn [map filter] in *; [auto|]. inversion H; subst. specialize (IH H3).
  destruct (eqb (map (rget r) (tb_pk t)) key) eqn:E; [|exact IH]. apply (proj1 (eqb_true _ _)) in E. subst key.
  assert (X : filter (fun r0 => eqb (map (rget r0) (tb_pk t)) (map (rget r) (tb_pk t))) l = []).
  { destruct (filter _ l) as [|r0 l0] eqn:Ef; [reflexivity|]. exfalso. apply H2. assert (Hin : In r0 (r0 :: l0)) by (left; reflexivity). rewrite <- Ef in Hin.
    apply filter_In in Hin. destruct Hin as [Hin E]. apply (proj1 (eqb_true _ _)) in E. rewrite <- E. apply (in_map (fun r1 => map (rget r1) (tb_pk t))), Hin. }
  rewrite X. auto.
Qed.
(** The existing user is replaced, and then by itself. *)
Example C109_replace_case :
  let '(w1, r1) := go replacing two yes at_first in let '(w2, r2) := go replacing two yes (in_between w1) in
  r1 = Ok tt /\ r2 = Ok tt /\ length (rows_of (w_dest w1) ("s", "users")) = 2 /\ ~ In old_user (rows_of (w_dest w1) ("s", "users")) /\
  strategy_of replacing (oplan two) "s.users" = SReplace /\ plain_keys (oenv yes none) (ocfg replacing) (oplan two) "s.users" ("s", "users") users /\
  plain_column (oenv yes none) (ocfg replacing) (oplan two) "s.users" ("s", "users") "name" /\
  key_given users (written (trace w1) ("s", "users")) /\ one_row_each users (written (trace w1) ("s", "users")) /\ keys_unique users (rows_of (w_dest (in_between w1)) ("s", "users")) /\
  ds_rows (w_dest w2) = ds_rows (w_dest (in_between w1)).
Proof.
  destruct (go replacing two yes at_first) as [w1 r1] eqn:H1. vm_compute in H1. injection H1 as <- <-.
  destruct (go replacing two yes (in_between _)) as [w2 r2] eqn:H2. vm_compute in H2. injection H2 as <- <-.
  split; [reflexivity|]. split; [reflexivity|]. split; [reflexivity|]. split; [intros H; vm_compute in H; repeat (destruct H as [H|H]; [discriminate|]); elim H|]. split; [reflexivity|]. split.
  { intros key k [<-|[]] [<-|[]]. apply plain_case; vm_compute; reflexivity. }
  split; [apply plain_case; vm_compute; reflexivity|].
  split; [split; [discriminate|]; intros r k Hr [<-|[]]; vm_compute in Hr; repeat (destruct Hr as [<-|Hr]; [vm_compute; discriminate|]); elim Hr|].
  split; [apply nodupb_true; vm_compute; reflexivity|]. split; [|reflexivity].
  apply unique_case. vm_compute. reflexivity.
Qed.
(** The destination refuses the second batch of orders. *)
Definition moody (d : dest) (e : event) : bool := match e with EvInsert ("s", "orders") _ [r] => false | _ => true end.
Example C110_case :
  let '(w1, r1) := go skipping two moody at_first in let '(wa, ra) := go skipping two yes at_first in let '(w2, r2) := go skipping two yes (mkWorld (w_dest w1) []) in
  r1 = Err OxDbError /\ ra = Ok tt /\ r2 = Ok tt /\ replay odflt (w_dest at_first) (trace w1) (w_dest w1) /\
  length (rows_of (w_dest w1) ("s", "orders")) = 2 /\ length (rows_of (w_dest wa) ("s", "orders")) = 3 /\
  plain_keys (oenv yes none) (ocfg skipping) (oplan two) "s.orders" ("s", "orders") orders /\ key_given orders (rows_of (w_dest wa) ("s", "orders")) /\
  run_ok (oenv yes none) (ocfg skipping) skipping (oplan two) (w_dest w1) /\
  ds_rows (w_dest w2) = ds_rows (w_dest wa).
Proof.
  destruct (go skipping two moody at_first) as [w1 r1] eqn:H1. vm_compute in H1. injection H1 as <- <-.
  destruct (go skipping two yes at_first) as [wa ra] eqn:Ha. vm_compute in Ha. injection Ha as <- <-.
  destruct (go skipping two yes (mkWorld _ [])) as [w2 r2] eqn:H2. vm_compute in H2. injection H2 as <- <-.
  split; [reflexivity|]. split; [reflexivity|]. split; [reflexivity|].
  split; [repeat (eapply replay_cons; [vm_compute; reflexivity|]); apply replay_nil|]. split; [reflexivity|]. split; [reflexivity|]. split.
  { intros key k [<-|[]] [<-|[]]. apply plain_case; vm_compute; reflexivity. }
  split; [split; [discriminate|]; intros r k Hr [<-|[]]; vm_compute in Hr; repeat (destruct Hr as [<-|Hr]; [vm_compute; discriminate|]); elim Hr|].
  split; [apply orun_ok; vm_compute; reflexivity|]. reflexivity.
Qed.
