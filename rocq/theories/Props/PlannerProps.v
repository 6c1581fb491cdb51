(** Properties C11-C23 and C78-C80: /repo/subsetter/planner.py. *)
From Verif Require Import Model.Base Model.Solver Model.Value Model.Names Model.PlanModel Model.Metadata Model.Planner.
From Verif Require Import Spec.GraphSpec Spec.SchemaSpec Spec.SqlSem Spec.PlannerSpec.
From Verif Require Import Proofs.BaseFacts Proofs.NameFacts Proofs.MetadataMain Proofs.PlannerFinal Proofs.PlannerWrap Proofs.PlannerDet Proofs.PlannerExamples.
Open Scope string_scope.
Open Scope list_scope.

(** C11 *)
Theorem C11_plan_acyclic : forall (fnm : string -> string -> bool) cfg db ord ordp,
  db_ok db -> any_order ord -> any_order ordp ->
  names_valid cfg -> c_include_deps cfg = true ->
  ~ into_ignored fnm cfg db -> ~ out_of_passthrough fnm cfg db -> ~ bad_target fnm cfg db -> c_constraints cfg = [] ->
  (cyclic fnm cfg db /\ plan_db ord ordp fnm cfg db = Err (PValueError RCycle)) \/
  (~ cyclic fnm cfg db /\ exists p, plan_db ord ordp fnm cfg db = Ok p).
Proof. intros; apply plan_acyclic; assumption. Qed.
Print Assumptions C11_plan_acyclic.

(** C12 *)
Theorem C12_plan_covers : forall (fnm : string -> string -> bool) cfg db ord ordp p,
  db_ok db -> any_order ord -> any_order ordp ->
  plan_db ord ordp fnm cfg db = Ok p ->
  NoDup (dkeys (p_queries p)) /\
  (forall s, In s (dkeys (p_queries p)) <-> exists n, named s n /\ (passed_through fnm cfg db n \/ connected fnm cfg db n)) /\
  (forall s q n, In (s, q) (p_queries p) -> named s n -> exists st, q = mkQuery None None (Some st) /\ reads_only n st) /\
  NoDup (p_passthrough p) /\
  (forall s, In s (p_passthrough p) <-> exists n, named s n /\ passed_through fnm cfg db n).
Proof. intros; eapply plan_covers; eassumption. Qed.
Print Assumptions C12_plan_covers.

(** The hypotheses of the theorems about populated plans. *)
Definition sampling (fnm : string -> string -> bool) cfg db p
    (cmpf : cmpop -> value -> value -> bool) (textf : string -> option (dict string lit) -> row -> tv)
    (source sample : tname -> list row) : Prop :=
  db_ok db /\ config_ok cfg /\ extras_valid cfg /\
  (exists ord ordp, any_order ord /\ any_order ordp /\ plan_db ord ordp fnm cfg db = Ok p) /\
  populated cmpf textf source sample p.

(** C13 *)
Theorem C13_foreign_keys_preserved : forall (fnm : string -> string -> bool) cfg db p cmpf textf source sample,
  sampling fnm cfg db p cmpf textf source sample ->
  eq_symmetric cmpf -> source_consistent fnm cfg db cmpf source ->
  (forall n g, is_target cfg n g -> tg_all g = true -> tg_amount g = None) ->
  forall n fk, considered fnm cfg db n fk -> planned p n -> planned p (fk_dst fk) ->
  fk_holds cmpf fk (sample n) (sample (fk_dst fk)).
Proof. intros fnm cfg db p cmpf textf source sample (H1 & H2 & H3 & (ord & ordp & H4 & H5 & H6) & H7). eapply fk_preserved; eassumption. Qed.
Print Assumptions C13_foreign_keys_preserved.

(** C14 *)
Theorem C14_children_maximal : forall (fnm : string -> string -> bool) cfg db p cmpf textf source sample,
  sampling fnm cfg db p cmpf textf source sample ->
  forall n l, connected fnm cfg db n -> constraints_of cfg n l -> (exists fk, earlier_parent fnm cfg db p n fk) ->
  exists keep, Permutation (sample n) (filter keep (source n)) /\
    forall r, keep r = true <->
      (forall c, In c l -> constr_holds cmpf textf source sample r c) /\
      forall fk, earlier_parent fnm cfg db p n fk -> exists r', In r' (sample (fk_dst fk)) /\ refers cmpf fk r r'.
Proof. intros fnm cfg db p cmpf textf source sample (H1 & H2 & H3 & (ord & ordp & H4 & H5 & H6) & H7). eapply from_parents; eassumption. Qed.
Print Assumptions C14_children_maximal.

(** C15.  The full claim, for a source row [r] of [n]: [r] satisfies the constraints and would not violate any
    foreign key to the sampled parents ([NULL] foreign keys violate nothing), hence [r] is sampled. *)
Definition includable (fnm : string -> string -> bool) cfg db p cmpf textf source sample n l r : Prop :=
  In r (source n) /\ (forall c, In c l -> constr_holds cmpf textf source sample r c) /\
  forall fk, earlier_parent fnm cfg db p n fk -> fk_holds cmpf fk [r] (sample (fk_dst fk)).
Theorem C15_maximal_partial : forall (fnm : string -> string -> bool) cfg db p cmpf textf source sample,
  sampling fnm cfg db p cmpf textf source sample ->
  forall n l r, connected fnm cfg db n -> constraints_of cfg n l -> (exists fk, earlier_parent fnm cfg db p n fk) ->
  (* missing: rows with a NULL in one of these foreign keys *)
  (forall fk c, earlier_parent fnm cfg db p n fk -> In c (fk_cols fk) -> rget r c <> VNull) ->
  includable fnm cfg db p cmpf textf source sample n l r -> In r (sample n).
Proof.
  intros fnm cfg db p cmpf textf source sample (H1 & H2 & H3 & (ord & ordp & H4 & H5 & H6) & H7). intros. eapply maximal_nonnull; eassumption.
Qed.
Print Assumptions C15_maximal_partial.

(** C16 *)
Theorem C16_parents_minimal : forall (fnm : string -> string -> bool) cfg db p cmpf textf source sample,
  sampling fnm cfg db p cmpf textf source sample -> eq_symmetric cmpf ->
  forall n, connected fnm cfg db n -> (forall g, ~ is_target cfg n g) -> (exists c fk, earlier_child fnm cfg db p n c fk) ->
  exists keep, Permutation (sample n) (filter keep (source n)) /\
    forall r, keep r = true <-> exists c fk r', earlier_child fnm cfg db p n c fk /\ In r' (sample c) /\ refers cmpf fk r' r.
Proof. intros fnm cfg db p cmpf textf source sample (H1 & H2 & H3 & (ord & ordp & H4 & H5 & H6) & H7). intros. eapply from_children; eassumption. Qed.
Print Assumptions C16_parents_minimal.

(** C14 and C16 (and C17, C19) are about all tables that are not passed through: *)
Theorem C16_three_kinds : forall (fnm : string -> string -> bool) cfg db p cmpf textf source sample,
  sampling fnm cfg db p cmpf textf source sample ->
  forall n, connected fnm cfg db n ->
  ((exists fk, earlier_parent fnm cfg db p n fk) /\ (forall c fk, ~ earlier_child fnm cfg db p n c fk) /\ (forall g, ~ is_target cfg n g)) \/
  ((forall fk, ~ earlier_parent fnm cfg db p n fk) /\ (exists c fk, earlier_child fnm cfg db p n c fk)) \/
  ((forall fk, ~ earlier_parent fnm cfg db p n fk) /\ (forall c fk, ~ earlier_child fnm cfg db p n c fk) /\ exists g, is_target cfg n g).
Proof. intros fnm cfg db p cmpf textf source sample (H1 & H2 & H3 & (ord & ordp & H4 & H5 & H6) & H7). intros. eapply table_kinds; eassumption. Qed.
Print Assumptions C16_three_kinds.

(** C17 *)
Theorem C17_target_filters : forall (fnm : string -> string -> bool) cfg db p cmpf textf source sample,
  sampling fnm cfg db p cmpf textf source sample ->
  forall n g, is_target cfg n g -> (forall c fk, ~ earlier_child fnm cfg db p n c fk) ->
  own_selection cmpf textf g (source n) (sample n).
Proof.
  intros fnm cfg db p cmpf textf source sample (H1 & H2 & H3 & (ord & ordp & H4 & H5 & H6) & H7). intros.
  eapply target_selection; try eassumption. left. assumption.
Qed.
Print Assumptions C17_target_filters.

(** C18: proved for targets without an amount. *)
Theorem C18_all_partial : forall (fnm : string -> string -> bool) cfg db p cmpf textf source sample,
  sampling fnm cfg db p cmpf textf source sample ->
  forall n g, is_target cfg n g -> tg_all g = true -> tg_amount g = None -> Permutation (sample n) (source n).
Proof. intros fnm cfg db p cmpf textf source sample (H1 & H2 & H3 & (ord & ordp & H4 & H5 & H6) & H7). intros. eapply target_all; eassumption. Qed.
Print Assumptions C18_all_partial.

(** C19: "nothing else" is proved for targets with an amount only; without one, everything is sampled. *)
Theorem C19_referenced_target_partial : forall (fnm : string -> string -> bool) cfg db p cmpf textf source sample,
  sampling fnm cfg db p cmpf textf source sample -> eq_symmetric cmpf ->
  forall n g, is_target cfg n g -> (exists c fk, earlier_child fnm cfg db p n c fk) -> tg_all g = false ->
  exists own, own_selection cmpf textf g (source n) own /\ (forall r, In r own -> In r (sample n)) /\
    (forall r c fk r', In r (source n) -> earlier_child fnm cfg db p n c fk -> In r' (sample c) -> refers cmpf fk r' r -> In r (sample n)) /\
    (tg_amount g <> None -> forall r, In r (sample n) -> In r own \/
       (In r (source n) /\ exists c fk r', earlier_child fnm cfg db p n c fk /\ In r' (sample c) /\ refers cmpf fk r' r)).
Proof. intros fnm cfg db p cmpf textf source sample (H1 & H2 & H3 & (ord & ordp & H4 & H5 & H6) & H7). intros. eapply target_referenced; eassumption. Qed.
Print Assumptions C19_referenced_target_partial.
Theorem C19_whole_table_partial : forall (fnm : string -> string -> bool) cfg db p cmpf textf source sample,
  sampling fnm cfg db p cmpf textf source sample ->
  forall n g, is_target cfg n g -> (exists c fk, earlier_child fnm cfg db p n c fk) -> tg_all g = false ->
  tg_amount g = None -> (forall q, tg_percent g = Some q -> Qlt 0 q) -> Permutation (sample n) (source n).
Proof. intros fnm cfg db p cmpf textf source sample (H1 & H2 & H3 & (ord & ordp & H4 & H5 & H6) & H7). intros. eapply target_referenced_whole; eassumption. Qed.
Print Assumptions C19_whole_table_partial.

(** C20: proved for tables that are not targets. *)
Theorem C20_constraints_partial : forall (fnm : string -> string -> bool) cfg db p cmpf textf source sample,
  sampling fnm cfg db p cmpf textf source sample ->
  forall n l r, connected fnm cfg db n -> (forall g, ~ is_target cfg n g) -> constraints_of cfg n l -> In r (sample n) ->
  forall c, In c l -> constr_holds cmpf textf source sample r c.
Proof. intros fnm cfg db p cmpf textf source sample (H1 & H2 & H3 & (ord & ordp & H4 & H5 & H6) & H7). intros. eapply constraints_respected; eassumption. Qed.
Print Assumptions C20_constraints_partial.

(** C21.  Which error is raised, in the order of the checks; then what the constraints add. *)
Theorem C21_rejects : forall (fnm : string -> string -> bool) cfg db ord ordp,
  db_ok db -> any_order ord -> any_order ordp -> c_include_deps cfg = true ->
  (plan_db ord ordp fnm cfg db = Err (PValueError RName) <-> ~ names_valid cfg) /\
  (plan_db ord ordp fnm cfg db = Err (PValueError RIgnored) <-> names_valid cfg /\ into_ignored fnm cfg db) /\
  (plan_db ord ordp fnm cfg db = Err (PValueError RPassthrough) <->
     names_valid cfg /\ ~ into_ignored fnm cfg db /\ out_of_passthrough fnm cfg db) /\
  (plan_db ord ordp fnm cfg db = Err (PValueError RTarget) <->
     names_valid cfg /\ ~ into_ignored fnm cfg db /\ ~ out_of_passthrough fnm cfg db /\ bad_target fnm cfg db) /\
  (plan_db ord ordp fnm cfg db = Err (PValueError RCycle) <->
     names_valid cfg /\ ~ into_ignored fnm cfg db /\ ~ out_of_passthrough fnm cfg db /\ ~ bad_target fnm cfg db /\ cyclic fnm cfg db).
Proof. intros; apply plan_rejects; assumption. Qed.
Print Assumptions C21_rejects.
Theorem C21_constraints : forall (fnm : string -> string -> bool) cfg db ord ordp p0,
  db_ok db -> any_order ord -> any_order ordp -> config_ok cfg ->
  plan_db ord ordp fnm (without_constraints cfg) db = Ok p0 ->
  (constraints_misplaced fnm cfg db p0 /\
     exists r, plan_db ord ordp fnm cfg db = Err (PValueError r) /\ (r = RConstraintRev \/ r = RConstraintCol \/ r = RConstraintVal)) \/
  (~ constraints_misplaced fnm cfg db p0 /\
     exists p, plan_db ord ordp fnm cfg db = Ok p /\ dkeys (p_queries p) = dkeys (p_queries p0) /\ p_passthrough p = p_passthrough p0).
Proof. intros; apply plan_constraints; assumption. Qed.
Print Assumptions C21_constraints.

(** C22.  [considered] (above) is the same at the level of the schema. *)
Theorem C22_edit_foreign_keys : forall cfg (ms : meta), NoDup (dkeys ms) -> names_valid cfg ->
  exists ms', edit_fks cfg ms = Ok ms' /\ dkeys ms' = dkeys ms /\
    forall n m, In (n, m) (match c_infer cfg with InferNone => ms | InferSchema => infer_missing_foreign_keys false ms | InferAll => infer_missing_foreign_keys true ms end) ->
      exists keep used extra, In (n, mkMeta (tm_table m) (filter keep (tm_fks m) ++ extra) (tm_rev m)) ms' /\
        (forall fk, keep fk = true <-> ~ ignored_fk cfg n (fk_dst fk)) /\
        (forall x, used x = true <-> exists fk, extra_usable ms n x fk) /\
        Forall2 (extra_usable ms n) (filter used (c_extra_fks cfg)) extra.
Proof. exact edit_fks_exact. Qed.
Print Assumptions C22_edit_foreign_keys.

(** C23: proved when no considered foreign key leaves the selection; otherwise a KeyError. *)
Theorem C23_without_dependencies_partial : forall (fnm : string -> string -> bool) cfg db ord ordp,
  db_ok db -> any_order ord -> any_order ordp ->
  names_valid cfg -> c_include_deps cfg = false -> ~ out_of_passthrough fnm cfg db -> ~ bad_target fnm cfg db -> c_constraints cfg = [] ->
  (forall n fk, considered fnm cfg db n fk -> chosen fnm cfg db (fk_dst fk)) ->
  (cyclic fnm cfg db /\ plan_db ord ordp fnm cfg db = Err (PValueError RCycle)) \/
  (~ cyclic fnm cfg db /\ exists p, plan_db ord ordp fnm cfg db = Ok p).
Proof. intros; apply plan_without_deps; assumption. Qed.
Print Assumptions C23_without_dependencies_partial.
Theorem C23_keyerror : forall (fnm : string -> string -> bool) cfg db ord ordp,
  db_ok db -> any_order ord -> any_order ordp ->
  names_valid cfg -> c_include_deps cfg = false -> ~ out_of_passthrough fnm cfg db -> ~ bad_target fnm cfg db -> ~ cyclic fnm cfg db ->
  (exists n fk, considered fnm cfg db n fk /\ ~ chosen fnm cfg db (fk_dst fk)) ->
  plan_db ord ordp fnm cfg db = Err PKeyError.
Proof. intros; apply plan_keyerror; assumption. Qed.
Print Assumptions C23_keyerror.

(** C78 *)
Theorem C78_rows_from_source : forall (fnm : string -> string -> bool) cfg db p cmpf textf source sample,
  sampling fnm cfg db p cmpf textf source sample ->
  forall n, planned p n -> incl (sample n) (source n) /\ (NoDup (source n) -> NoDup (sample n)).
Proof.
  intros fnm cfg db p cmpf textf source sample (H1 & H2 & H3 & (ord & ordp & H4 & H5 & H6) & H7). intros. split.
  - intros r. eapply rows_from_source; eassumption.
  - eapply rows_once; eassumption.
Qed.
Print Assumptions C78_rows_from_source.
Theorem C78_passthrough_whole : forall (fnm : string -> string -> bool) cfg db p cmpf textf source sample,
  sampling fnm cfg db p cmpf textf source sample ->
  forall n, passed_through fnm cfg db n -> Permutation (sample n) (source n).
Proof. intros fnm cfg db p cmpf textf source sample (H1 & H2 & H3 & (ord & ordp & H4 & H5 & H6) & H7). intros. eapply pass_whole; eassumption. Qed.
Print Assumptions C78_passthrough_whole.

(** C79.  Iteration orders change nothing but the order of the passthrough tables. *)
Theorem C79_plan_deterministic : forall (fnm : string -> string -> bool) cfg db ord ord' ordp ordp',
  db_ok db -> any_order ord -> any_order ord' -> any_order ordp -> any_order ordp' ->
  match plan_db ord ordp fnm cfg db, plan_db ord' ordp' fnm cfg db with
  | Ok p, Ok p' => exists pass pass' rest, p_queries p = pass ++ rest /\ p_queries p' = pass' ++ rest /\ Permutation pass pass' /\
                     p_passthrough p = dkeys pass /\ p_passthrough p' = dkeys pass'
  | Err e, Err e' => e = e'
  | _, _ => False
  end.
Proof. intros; apply plan_det; assumption. Qed.
Print Assumptions C79_plan_deterministic.

(** * Concrete cases *)
Definition xfnm (s p : string) : bool := eqb s p.
Definition idl {A} (l : list A) : list A := l.
Lemma idl_any {A} : any_order (@idl A). Proof. intros l. apply Permutation_refl. Qed.
Definition xcmp (o : cmpop) (a b : value) : bool :=
  match o with CEq | CLike => eqb a b | CNe => negb (eqb a b) | _ => false end.
Lemma xcmp_sym : eq_symmetric xcmp.
Proof. intros a b. cbn. destruct (eqb a b) eqn:E1, (eqb b a) eqn:E2; try reflexivity; rewrite ?eqb_true, ?eqb_false in *; congruence. Qed.
Definition xtext (s : string) (p : option (dict string lit)) (r : row) : tv := T3.
Definition z0 : rnd := mkRnd (fun _ _ _ => 0%Q) (fun l => l).
Lemma z0_ok : rnd_ok z0.
Proof. split; [intros; split; [apply Qle_refl|reflexivity]|intros; apply Permutation_refl]. Qed.

(** a.child(id, pid) -> a.parent(pid, gid) -> b.grp(gid), and b.codes *)
Definition xdb : list table :=
  [ mkTable ("a", "child") ["id"; "pid"] ["id"] [mkFK ["pid"] ("a", "parent") ["pid"]] [];
    mkTable ("a", "parent") ["pid"; "gid"] ["pid"] [mkFK ["gid"] ("b", "grp") ["gid"]] [];
    mkTable ("b", "grp") ["gid"] ["gid"] [] [];
    mkTable ("b", "codes") ["code"] ["code"] [] [] ].
Example xdb_ok : db_ok xdb.
Proof. exact (db_okb_true xdb eq_refl). Qed.
Definition tg0 : target := mkTarget false None None [] [] None.
Definition tg_whole : target := mkTarget true None None [] [] None.
Definition xcfg (targets : dict string target) (cs : dict string (list constr)) : config :=
  mkConfig cs ["a.child"] targets [] ["b.codes"] [] [] InferNone true.

Definition xsource (n : tname) : list row :=
  if eqb n ("a", "child") then
    [ [("id", VInt 1); ("pid", VInt 10)]; [("id", VInt 2); ("pid", VInt 20)]; [("id", VInt 3); ("pid", VNull)] ]
  else if eqb n ("a", "parent") then
    [ [("pid", VInt 10); ("gid", VInt 100)]; [("pid", VInt 20); ("gid", VInt 200)]; [("pid", VInt 30); ("gid", VInt 300)] ]
  else if eqb n ("b", "grp") then [ [("gid", VInt 100)]; [("gid", VInt 200)]; [("gid", VInt 300)] ]
  else if eqb n ("b", "codes") then [ [("code", VInt 7)] ] else [].

Definition plan_of cfg : plan := match plan_db idl idl xfnm cfg xdb with Ok p => p | Err _ => mkPlan [] [] end.
Definition xsample cfg : tname -> list row := sample_of xcmp xtext xsource z0 (plan_of cfg).
Definition check cfg : bool :=
  match plan_db idl idl xfnm cfg xdb with Ok p => populatedb xcmp xtext xsource z0 (xsample cfg) p | Err _ => false end.

Lemma check_sampling targets cs : check (xcfg targets cs) = true -> NoDup (dkeys targets) -> NoDup (dkeys cs) ->
  sampling xfnm (xcfg targets cs) xdb (plan_of (xcfg targets cs)) xcmp xtext xsource (xsample (xcfg targets cs)).
Proof.
  intros Hc Ht Hcs. split; [exact xdb_ok|]. split; [split; assumption|]. split; [intros x []|]. unfold check in Hc. split.
  - exists idl, idl. split; [apply idl_any|]. split; [apply idl_any|]. unfold plan_of.
    destruct (plan_db idl idl xfnm (xcfg targets cs) xdb); [reflexivity|discriminate].
  - unfold plan_of in *. destruct (plan_db idl idl xfnm (xcfg targets cs) xdb) eqn:E; [|discriminate].
    eapply populatedb_true; [exact z0_ok|exact Hc].
Qed.

Section X.
Variables (targets : dict string target) (cs : dict string (list constr)).
Let cfg := xcfg targets cs.
Lemma x_child : active xfnm cfg xdb ("a", "child").
Proof.
  apply active_by; [|intros []|intros [C|[]]; discriminate].
  eapply (@chosen_by xfnm cfg xdb _ "a.child" "a.child"); [left; reflexivity|reflexivity|reflexivity|left; reflexivity|reflexivity].
Qed.
Lemma x_parent : active xfnm cfg xdb ("a", "parent").
Proof.
  apply active_by; [|intros []|intros [C|[]]; discriminate].
  eapply (@chosen_step xfnm cfg xdb ("a", "child") _ (mkFK ["pid"] ("a", "parent") ["pid"]));
    [reflexivity|apply x_child|left; reflexivity|reflexivity|left; reflexivity].
Qed.
Lemma x_grp : active xfnm cfg xdb ("b", "grp").
Proof.
  apply active_by; [|intros []|intros [C|[]]; discriminate].
  eapply (@chosen_step xfnm cfg xdb ("a", "parent") _ (mkFK ["gid"] ("b", "grp") ["gid"]));
    [reflexivity|apply x_parent|right; left; reflexivity|reflexivity|left; reflexivity].
Qed.
Lemma x_fk1 : considered xfnm cfg xdb ("a", "child") (mkFK ["pid"] ("a", "parent") ["pid"]).
Proof. eapply considered_by; [apply x_child|left; reflexivity|reflexivity|left; reflexivity|reflexivity]. Qed.
Lemma x_fk2 : considered xfnm cfg xdb ("a", "parent") (mkFK ["gid"] ("b", "grp") ["gid"]).
Proof. eapply considered_by; [apply x_parent|right; left; reflexivity|reflexivity|left; reflexivity|reflexivity]. Qed.
Lemma x_edge1 : active_edge xfnm cfg xdb ("a", "child") ("a", "parent").
Proof. exact (@edge_by xfnm cfg xdb _ (mkFK ["pid"] ("a", "parent") ["pid"]) x_child x_parent x_fk1). Qed.
Lemma x_edge2 : active_edge xfnm cfg xdb ("a", "parent") ("b", "grp").
Proof. exact (@edge_by xfnm cfg xdb _ (mkFK ["gid"] ("b", "grp") ["gid"]) x_parent x_grp x_fk2). Qed.
Lemma x_considered n fk : considered xfnm cfg xdb n fk ->
  (n = ("a", "child") /\ fk = mkFK ["pid"] ("a", "parent") ["pid"]) \/ (n = ("a", "parent") /\ fk = mkFK ["gid"] ("b", "grp") ["gid"]).
Proof.
  intros (_ & [[[(t & [Ht Hn] & Hf)|[C _]] _]|(x & [] & _)]); [|exfalso; apply C; reflexivity].
  destruct Ht as [<-|[<-|[<-|[<-|[]]]]]; cbn in Hn, Hf; try contradiction; destruct Hf as [<-|[]]; [left|right]; split; congruence.
Qed.
Lemma x_consistent : source_consistent xfnm cfg xdb xcmp xsource.
Proof.
  intros n fk Hc. apply x_considered in Hc. destruct Hc as [[-> ->]|[-> ->]]; intros r Hr Hnn; vm_compute in Hr.
  - destruct Hr as [<-|[<-|[<-|[]]]].
    + exists [("pid", VInt 10); ("gid", VInt 100)]. split; [left; reflexivity|]. constructor; [vm_compute; repeat split; discriminate|constructor].
    + exists [("pid", VInt 20); ("gid", VInt 200)]. split; [right; left; reflexivity|]. constructor; [vm_compute; repeat split; discriminate|constructor].
    + exfalso. apply (Hnn "pid"); [left; reflexivity|reflexivity].
  - destruct Hr as [<-|[<-|[<-|[]]]].
    + exists [("gid", VInt 100)]. split; [left; reflexivity|]. constructor; [vm_compute; repeat split; discriminate|constructor].
    + exists [("gid", VInt 200)]. split; [right; left; reflexivity|]. constructor; [vm_compute; repeat split; discriminate|constructor].
    + exists [("gid", VInt 300)]. split; [right; right; left; reflexivity|]. constructor; [vm_compute; repeat split; discriminate|constructor].
Qed.
End X.

(** One row of a.parent is the target; a.child is sampled from it under a constraint, b.grp for it. *)
Definition tgA : target := mkTarget false None (Some 1%Z) [] [("pid", [LInt 10; LInt 20])] None.
Definition cA : constr := mkConstr "id" OpEq (inl (LInt 1)).
Definition cfgA : config := xcfg [("a.parent", tgA)] [("a.child", [cA])].
Example A_sampling : sampling xfnm cfgA xdb (plan_of cfgA) xcmp xtext xsource (xsample cfgA).
Proof. apply check_sampling; [vm_compute; reflexivity|repeat constructor; intros []|repeat constructor; intros []]. Qed.
Example A_plan : dkeys (p_queries (plan_of cfgA)) = ["b.codes"; "a.parent"; "b.grp"; "a.child"] /\ p_passthrough (plan_of cfgA) = ["b.codes"].
Proof. vm_compute. tauto. Qed.
Example A_sample : map (xsample cfgA) [("a", "parent"); ("a", "child"); ("b", "grp"); ("b", "codes")] =
  [ [ [("pid", VInt 10); ("gid", VInt 100)] ]; [ [("id", VInt 1); ("pid", VInt 10)] ]; [ [("gid", VInt 100)] ]; [ [("code", VInt 7)] ] ].
Proof. vm_compute. reflexivity. Qed.
Example A_target : is_target cfgA ("a", "parent") tgA /\ connected xfnm cfgA xdb ("a", "parent") /\ forall c fk, ~ earlier_child xfnm cfgA xdb (plan_of cfgA) ("a", "parent") c fk.
Proof.
  assert (Ht : is_target cfgA ("a", "parent") tgA) by (eapply target_by; [left; reflexivity|reflexivity]).
  split; [exact Ht|]. split; [exact (connected_target Ht (x_parent _ _))|].
  intros c fk (_ & _ & Hc & Hd & (sa & sb & Ha & Hb & Hbf)). apply x_considered in Hc. destruct Hc as [[-> ->]|[-> ->]]; [|discriminate Hd].
  rewrite (proj1 Ha), (proj1 Hb) in Hbf. rewrite (proj1 A_plan) in Hbf. destruct Hbf as (l1 & l2 & l3 & He). cbn in He.
  do 4 (destruct l1 as [|? l1]; cbn in He; [inversion He; subst; try (destruct l2; discriminate)|inversion He; clear He; subst; rename H1 into He]).
  destruct l1; discriminate.
Qed.
Example A_child : connected xfnm cfgA xdb ("a", "child") /\ constraints_of cfgA ("a", "child") [cA] /\
  earlier_parent xfnm cfgA xdb (plan_of cfgA) ("a", "child") (mkFK ["pid"] ("a", "parent") ["pid"]).
Proof.
  split; [eapply connected_step; [apply A_target|right; apply x_edge1]|]. split.
  - exists "a.child". split; [apply named_parse; reflexivity|left; left; reflexivity].
  - split; [apply x_child|]. split; [apply x_parent|]. split; [apply x_fk1|].
    apply (@earlier_by (plan_of cfgA) ("a", "parent") ("a", "child") ["b.codes"] ["b.grp"] []); vm_compute; reflexivity.
Qed.
Example A_grp : connected xfnm cfgA xdb ("b", "grp") /\ (forall g, ~ is_target cfgA ("b", "grp") g) /\
  earlier_child xfnm cfgA xdb (plan_of cfgA) ("b", "grp") ("a", "parent") (mkFK ["gid"] ("b", "grp") ["gid"]).
Proof.
  split; [eapply connected_step; [apply A_target|left; apply x_edge2]|]. split.
  - apply no_target; [exact xfnm|]. intros H. vm_compute in H. destruct H as [C|C]; [discriminate C|exact C].
  - split; [apply x_grp|]. split; [apply x_parent|]. split; [apply x_fk2|]. split; [reflexivity|].
    apply (@earlier_by (plan_of cfgA) ("a", "parent") ("b", "grp") ["b.codes"] [] ["a.child"]); vm_compute; reflexivity.
Qed.
Example A_consistent : eq_symmetric xcmp /\ source_consistent xfnm cfgA xdb xcmp xsource.
Proof. exact (conj xcmp_sym (x_consistent _ _)). Qed.
(** The errors of C21 and the cycle of C11. *)
Example A_errors :
  plan_db idl idl xfnm (mkConfig [] ["a.child"] [] ["nodot"] [] [] [] InferNone true) xdb = Err (PValueError RName) /\
  plan_db idl idl xfnm (mkConfig [] ["a.child"] [("a.child", tg0)] ["b.grp"] [] [] [] InferNone true) xdb = Err (PValueError RIgnored) /\
  plan_db idl idl xfnm (mkConfig [] ["a.child"] [("a.child", tg0)] [] ["a.parent"] [] [] InferNone true) xdb = Err (PValueError RPassthrough) /\
  plan_db idl idl xfnm (mkConfig [] ["a.child"] [("a.nope", tg0)] [] [] [] [] InferNone true) xdb = Err (PValueError RTarget) /\
  plan_db idl idl xfnm (mkConfig [] ["a.child"] [("a.child", tg0)] [] [] [] [mkExtra "b.grp" ["gid"] "a.child" ["id"]] InferNone true) xdb = Err (PValueError RCycle) /\
  plan_db idl idl xfnm (xcfg [("a.child", tg0)] [("a.parent", [cA])]) xdb = Err (PValueError RConstraintRev) /\
  plan_db idl idl xfnm (xcfg [("a.child", tg0)] [("a.child", [mkConstr "nope" OpEq (inl (LInt 1))])]) xdb = Err (PValueError RConstraintCol) /\
  plan_db idl idl xfnm (xcfg [("a.child", tg0)] [("a.child", [mkConstr "id" OpEq (inr [LInt 1])])]) xdb = Err (PValueError RConstraintVal).
Proof. vm_compute. repeat split. Qed.
Example C22_example :
  match edit_fks (mkConfig [] [] [] [] [] [("a.child", "a.parent")]
                    [mkExtra "a.child" ["id"] "b.grp" ["gid"]; mkExtra "a.child" ["zz"] "b.grp" ["gid"]; mkExtra "a.child" ["id"] "b.nope" ["gid"]] InferNone true)
                 (map (fun t => (tb_name t, new_meta t)) xdb) with
  | Ok ms => map (fun nm => tm_fks (snd nm)) ms = [ [mkFK ["id"] ("b", "grp") ["gid"]]; [mkFK ["gid"] ("b", "grp") ["gid"]]; []; [] ]
  | Err _ => False
  end.
Proof. reflexivity. Qed.

(** * Refutations *)
(** C15: the row of a.child with a NULL foreign key could be included, but is not. *)
Definition cfgB : config := xcfg [("a.parent", tg_whole)] [].
Theorem C15_maximal_refuted : exists fnm cfg db p cmpf textf source sample n l r,
  sampling fnm cfg db p cmpf textf source sample /\
  connected fnm cfg db n /\ constraints_of cfg n l /\ (exists fk, earlier_parent fnm cfg db p n fk) /\
  includable fnm cfg db p cmpf textf source sample n l r /\ ~ In r (sample n).
Proof.
  exists xfnm, cfgB, xdb, (plan_of cfgB), xcmp, xtext, xsource, (xsample cfgB), ("a", "child"), [], [("id", VInt 3); ("pid", VNull)].
  split; [apply check_sampling; [vm_compute; reflexivity|repeat constructor; intros []|repeat constructor; intros []]|].
  assert (Ht : is_target cfgB ("a", "parent") tg_whole) by (eapply target_by; [left; reflexivity|reflexivity]).
  split; [eapply connected_step; [exact (connected_target Ht (x_parent _ _))|right; apply x_edge1]|].
  split; [exists "a.child"; split; [apply named_parse; reflexivity|right; split; [reflexivity|intros []]]|].
  assert (Hp : earlier_parent xfnm cfgB xdb (plan_of cfgB) ("a", "child") (mkFK ["pid"] ("a", "parent") ["pid"])).
  { split; [apply x_child|]. split; [apply x_parent|]. split; [apply x_fk1|].
    apply (@earlier_by (plan_of cfgB) ("a", "parent") ("a", "child") ["b.codes"] ["b.grp"] []); vm_compute; reflexivity. }
  split; [exists (mkFK ["pid"] ("a", "parent") ["pid"]); exact Hp|]. split.
  - split; [right; right; left; reflexivity|]. split; [intros c []|].
    intros fk (_ & _ & Hc & _). apply x_considered in Hc. destruct Hc as [[_ ->]|[C _]]; [|discriminate C].
    intros r' [<-|[]] Hnn. exfalso. apply (Hnn "pid"); [left; reflexivity|reflexivity].
  - vm_compute. intros [C|[C|[]]]; discriminate.
Qed.
Print Assumptions C15_maximal_refuted.

(** C18: one row of three. *)
Definition tgC : target := mkTarget true None (Some 1%Z) [] [] None.
Definition cfgC : config := xcfg [("a.parent", tgC)] [].
Theorem C18_all_refuted : exists fnm cfg db p cmpf textf source sample n g,
  sampling fnm cfg db p cmpf textf source sample /\ is_target cfg n g /\ tg_all g = true /\ ~ Permutation (sample n) (source n).
Proof.
  exists xfnm, cfgC, xdb, (plan_of cfgC), xcmp, xtext, xsource, (xsample cfgC), ("a", "parent"), tgC.
  split; [apply check_sampling; [vm_compute; reflexivity|repeat constructor; intros []|repeat constructor; intros []]|].
  split; [eapply target_by; [left; reflexivity|reflexivity]|]. split; [reflexivity|].
  intros C. apply Permutation_length in C. vm_compute in C. discriminate.
Qed.
Print Assumptions C18_all_refuted.

(** C19: targets a.child (id 1) and a.parent (pid 30): the row pid 20 is sampled, too. *)
Definition tgD1 : target := mkTarget false None None [] [("id", [LInt 1])] None.
Definition tgD2 : target := mkTarget false None None [] [("pid", [LInt 30])] None.
Definition cfgD : config := xcfg [("a.child", tgD1); ("a.parent", tgD2)] [].
Theorem C19_referenced_target_refuted : exists fnm cfg db p cmpf textf source sample n g r,
  sampling fnm cfg db p cmpf textf source sample /\ eq_symmetric cmpf /\ is_target cfg n g /\ tg_all g = false /\
  (exists c fk, earlier_child fnm cfg db p n c fk) /\
  In r (sample n) /\ (forall u, ~ target_holds cmpf textf g u r) /\
  ~ (exists c fk r', earlier_child fnm cfg db p n c fk /\ In r' (sample c) /\ refers cmpf fk r' r).
Proof.
  exists xfnm, cfgD, xdb, (plan_of cfgD), xcmp, xtext, xsource, (xsample cfgD), ("a", "parent"), tgD2, [("pid", VInt 20); ("gid", VInt 200)].
  split; [apply check_sampling; [vm_compute; reflexivity|repeat constructor; vm_compute; intros H; repeat (destruct H as [H|H]; try discriminate); exact H|constructor]|].
  split; [exact xcmp_sym|]. split; [eapply target_by; [right; left; reflexivity|reflexivity]|]. split; [reflexivity|].
  split. { exists ("a", "child"), (mkFK ["pid"] ("a", "parent") ["pid"]). split; [apply x_parent|]. split; [apply x_child|]. split; [apply x_fk1|]. split; [reflexivity|].
    apply (@earlier_by (plan_of cfgD) ("a", "child") ("a", "parent") ["b.codes"] [] ["b.grp"]); vm_compute; reflexivity. }
  split; [vm_compute; tauto|]. split.
  - intros u [C|(_ & _ & _ & H)]; [discriminate|]. destruct (H "pid" [LInt 30] (or_introl eq_refl)) as (_ & v & [<-|[]] & C). vm_compute in C. discriminate.
  - intros (c & fk & r' & (_ & _ & Hc & Hd & _) & Hr & Href). apply x_considered in Hc. destruct Hc as [[-> ->]|[-> ->]]; [|discriminate Hd].
    vm_compute in Hr. destruct Hr as [<-|[]]. inversion Href as [|? ? ? ? (_ & _ & C) _]; subst. vm_compute in C. discriminate.
Qed.
Print Assumptions C19_referenced_target_refuted.

(** C20: the constraint id = 1 on the target a.child is not applied. *)
Definition cfgE : config := xcfg [("a.child", tg0)] [("a.child", [cA])].
Theorem C20_constraints_refuted : exists fnm cfg db p cmpf textf source sample n l r c,
  sampling fnm cfg db p cmpf textf source sample /\ connected fnm cfg db n /\ constraints_of cfg n l /\
  In r (sample n) /\ In c l /\ ~ constr_holds cmpf textf source sample r c.
Proof.
  exists xfnm, cfgE, xdb, (plan_of cfgE), xcmp, xtext, xsource, (xsample cfgE), ("a", "child"), [cA], [("id", VInt 2); ("pid", VInt 20)], cA.
  split; [apply check_sampling; [vm_compute; reflexivity|repeat constructor; intros []|repeat constructor; intros []]|].
  assert (Ht : is_target cfgE ("a", "child") tg0) by (eapply target_by; [left; reflexivity|reflexivity]).
  split; [exact (connected_target Ht (x_child _ _))|].
  split; [exists "a.child"; split; [apply named_parse; reflexivity|left; left; reflexivity]|].
  split; [vm_compute; tauto|]. split; [left; reflexivity|]. intros (v & Hv & C). inversion Hv; subst. vm_compute in C. discriminate.
Qed.
Print Assumptions C20_constraints_refuted.

(** C23: a.child alone, without dependencies. *)
Definition cfgF : config := mkConfig [] ["a.child"] [("a.child", tg0)] [] [] [] [] InferNone false.
Lemma F_chosen n : chosen xfnm cfgF xdb n -> n = ("a", "child").
Proof.
  intros (m & (t & s & p & Ht & Hs & Hp & He) & Hpath).
  assert (Hm : m = ("a", "child")).
  { destruct Hp as [<-|[]]. unfold xfnm in He. rewrite eqb_true in He. subst s. exact (named_fun Hs (named_parse (s := "a.child") (n := ("a", "child")) eq_refl)). }
  rewrite <- Hm. clear - Hpath. induction Hpath as [a b [[C _]|[C _]]|a|a b c _ IH1 _ IH2]; [discriminate|discriminate|reflexivity|congruence].
Qed.
Lemma F_considered n fk : considered xfnm cfgF xdb n fk -> n = ("a", "child") /\ fk_dst fk = ("a", "parent").
Proof.
  intros (Hch & [[[(t & [Ht Hn] & Hf)|[C _]] _]|(x & [] & _)]); [|exfalso; apply C; reflexivity]. apply F_chosen in Hch. rewrite Hch in Hn. split; [exact Hch|].
  destruct Ht as [<-|[<-|[<-|[<-|[]]]]]; cbn in Hn, Hf; try discriminate. destruct Hf as [<-|[]]. reflexivity.
Qed.
Theorem C23_without_dependencies_refuted : exists fnm cfg db ord ordp,
  db_ok db /\ any_order ord /\ any_order ordp /\
  names_valid cfg /\ c_include_deps cfg = false /\ ~ out_of_passthrough fnm cfg db /\ ~ bad_target fnm cfg db /\ c_constraints cfg = [] /\
  ~ cyclic fnm cfg db /\ plan_db ord ordp fnm cfg db = Err PKeyError.
Proof.
  exists xfnm, cfgF, xdb, idl, idl. split; [exact xdb_ok|]. split; [apply idl_any|]. split; [apply idl_any|].
  split; [split; [intros s [[]|[]]|split; [intros a b []|intros x []]]|]. split; [reflexivity|].
  split; [intros (n & fk & (_ & s & [] & _) & _)|]. split.
  { intros (s & Hs & _ & C). apply C. destruct Hs as [<-|[]]. exists ("a", "child"). split; [apply named_parse; reflexivity|].
    apply active_by; [|intros []|intros []]. eapply (@chosen_by xfnm cfgF xdb _ "a.child" "a.child"); [left; reflexivity|reflexivity|reflexivity|left; reflexivity|reflexivity]. }
  split; [reflexivity|]. split; [|vm_compute; reflexivity].
  intros (n & _ & Hc). assert (Hno : forall a b, ~ active_edge xfnm cfgF xdb a b).
  { intros a b (_ & (Hb & _) & fk & Hf & <-). apply F_considered in Hf. apply F_chosen in Hb. destruct Hf as [_ Hf]. congruence. }
  induction Hc as [a b H|a b c H1 IH1 H2 IH2]; [exact (Hno _ _ H)|exact (IH1)].
Qed.
Print Assumptions C23_without_dependencies_refuted.
