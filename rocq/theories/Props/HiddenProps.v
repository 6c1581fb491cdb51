(** Property C108: what a run writes, and whether and how it fails, does not depend on the values of columns that filters
    overwrite. *)
From Coq Require Import Lia.
From Verif Require Import Model.Base Model.Value Model.Names Model.PlanModel Model.SqlAlgebra Model.Metadata Model.Planner Model.Filters Model.Multiply Model.Materialize Model.Dest Model.Output Model.Sampler.
From Verif Require Import Spec.GraphSpec Spec.SchemaSpec Spec.SqlSem Spec.PlannerSpec Spec.FilterSpec Spec.OutputSpec Spec.SampleSpec Spec.RunSpec Spec.WholeSpec Spec.HiddenSpec.
From Verif Require Import Proofs.BaseFacts Proofs.NameFacts Proofs.MetadataMain Proofs.PlannerExamples Proofs.SampleFinal Proofs.SampleExamples Proofs.OutputExamples Proofs.Hidden Proofs.HiddenPlan.
From Verif Require Props.PlannerProps.
From Verif Require Import Spec.HiddenSpec Model.Dest.
Open Scope list_scope.
Open Scope string_scope.

Section Props.
Variable hidden : tname -> string -> Prop.
Context {G : Type}.
Variables (E : env G) (cfg : sampler_config) (p : plan).

(** C108: the source [src] differs from that of [E] in hidden columns only.  The runs on both do the same, statement by
    statement; they end in the same state and with the same outcome. *)
Theorem C108_hidden_values : forall src, HiddenSpec.blind hidden E cfg p -> same_visible hidden E src ->
  forall truncate create g w, sample (with_source E src) cfg p truncate create g w = sample E cfg p truncate create g w.
Proof. intros src Hb Hv truncate create g w. exact (hidden_same Hb Hv truncate create g w). Qed.

(** C108, for the planner's plans: it is enough that the configuration does not look at the hidden columns. *)
Theorem C108_planned : forall pcfg src, planned_by E p pcfg -> config_blind hidden E pcfg -> same_visible hidden E src ->
  env_ok E -> (forall ph n, oblivious hidden (en_rnd E ph n)) -> (forall n, ~ hidden n id_column) ->
  (forall t c, In t (en_source_schema E) -> hidden (tb_name t) c -> tb_pk t <> [] /\ seen hidden (tb_name t) (tb_pk t)) ->
  (forall n fk, source_fk E cfg p n fk -> seen hidden n (fk_cols fk) /\ seen hidden (fk_dst fk) (fk_dst_cols fk)) ->
  (forall t n c, named t n -> In t (dkeys (p_queries p)) -> hidden n c -> overwritten (filters_of cfg t) c) ->
  forall truncate create g w, sample (with_source E src) cfg p truncate create g w = sample E cfg p truncate create g w.
Proof.
  intros pcfg src Hp Hc Hv He Hr Hid Hk Hf Hfl truncate create g w.
  exact (hidden_same (planned_runs_blind Hp Hc He Hr Hid Hk Hf Hfl) Hv truncate create g w).
Qed.
End Props.
Print Assumptions C108_hidden_values.
Print Assumptions C108_planned.

(** ** A case: users with an email address, the groups they belong to; users called ann or bob are copied *)
Definition hdb : list table :=
  [ mkTable ("a", "user") ["id"; "gid"; "name"; "email"] ["id"] [mkFK ["gid"] ("a", "grp") ["gid"]] []; mkTable ("a", "grp") ["gid"; "title"] ["gid"] [] [] ].
Definition hsource (mail : Z -> value) (n : tname) : list row :=
  if eqb n ("a", "user") then
    [ [("id", VInt 5); ("gid", VInt 20); ("name", VStr "ann"); ("email", mail 5%Z)]; [("id", VInt 6); ("gid", VInt 10); ("name", VStr "bob"); ("email", mail 6%Z)];
      [("id", VInt 7); ("gid", VNull); ("name", VStr "cy"); ("email", mail 7%Z)] ]
  else if eqb n ("a", "grp") then [ [("gid", VInt 10); ("title", VStr "x")]; [("gid", VInt 20); ("title", VStr "y")]; [("gid", VInt 30); ("title", VStr "z")] ]
  else [].
Definition hplanner : config := mkConfig [] ["a.user"] [("a.user", mkTarget false None None [] [("name", [LStr "ann"; LStr "bob"])] None)] [] [] [] [] InferNone true.
Definition hplan : plan := match plan_db PlannerProps.idl PlannerProps.idl PlannerProps.xfnm hplanner hdb with Ok p => p | Err _ => mkPlan [] [] end.
Definition hmail (i : Z) : value := match i with 5%Z => VStr "ann@work.org" | 6%Z => VStr "bob@work.org" | _ => VNull end.
Definition hother (i : Z) : value := VInt i.
Definition henv (mail : Z -> value) : env unit :=
  Sampler.mkEnv ofilters PlannerProps.xfnm osub osets osets hdb (hsource mail) (fun _ c => memb c ["id"; "gid"]) (fun _ => false)
    PlannerProps.xcmp PlannerProps.xtext xraw xraw_cols xz xrank true odflt yes (fun _ _ => false) (fun _ => None) (fun _ _ => true) none 1.
(** Everything is copied twice, and keys are renumbered; the filter looks at the names before it replaces the addresses. *)
Definition hfilters : dict string (list filter_config) :=
  [("a.user", [FcMultiplex "name" [mkCond MIs (MvOne (VStr "bob")) (SfNull ["name"])]; FcSimple (SfConstant ["email"] [VStr "user@example.org"])])].
Definition hcfg (o : output_config) (fs : dict string (list filter_config)) : sampler_config :=
  mkSampler o fs (mkMult 2 [] [] []) InferNone (mkCompact true false 1 []).
Definition hout : output_config := ToDatabase (mkDbConfig SQLite [] SSkip false).
Definition hhidden (n : tname) (c : string) : Prop := n = ("a", "user") /\ c = "email".
Definition hbefore : world := odest hdb [(("a", "grp"), [ [("gid", VInt 1); ("title", VStr "old")] ])] [].

Lemma h_source mail : source_ok id_column hdb (hsource mail).
Proof.
  intros t [<-|[<-|[]]]; (split; [|split; [vm_compute; intuition discriminate|intros _; vm_compute; repeat constructor; cbn; intuition discriminate]]);
    vm_compute; repeat constructor; cbn; intuition discriminate.
Qed.
Lemma h_planned mail : planned_by (henv mail) hplan hplanner.
Proof.
  split; [split; [repeat constructor; intros []|constructor]|]. split; [intros x []|]. split; [apply db_okb_true; vm_compute; reflexivity|]. split.
  { intros n g t c (s & [Eq|[]] & Hn) [Ht Ht'] Hc. injection Eq as <- <-. apply parse_named in Hn. vm_compute in Hn. injection Hn as <-.
    assert (c = "name") as -> by (destruct Hc as [(x & [])|(x & [Eq|[]])]; congruence). destruct Ht as [<-|[<-|[]]]; try discriminate Ht'. cbn. tauto. }
  split. { exists PlannerProps.idl, PlannerProps.idl. split; [apply PlannerProps.idl_any|]. split; [apply PlannerProps.idl_any|vm_compute; reflexivity]. }
  split; [exact (h_source mail)|]. intros s _. apply eqb_refl.
Qed.
Lemma h_fk (n : tname) fk : (exists t, table_of hdb n t /\ In fk (tb_fks t)) -> n = ("a", "user") /\ fk = mkFK ["gid"] ("a", "grp") ["gid"].
Proof. intros (t & [[<-|[<-|[]]] Hn] & Hf); cbn in Hn, Hf; [|contradiction]. destruct Hf as [<-|[]]. auto. Qed.
Example C108_hypotheses : forall o,
  planned_by (henv hmail) hplan hplanner /\ config_blind hhidden (henv hmail) hplanner /\ same_visible hhidden (henv hmail) (hsource hother) /\
  env_ok (henv hmail) /\ (forall ph n, oblivious hhidden (en_rnd (henv hmail) ph n)) /\ (forall n, ~ hhidden n id_column) /\
  (forall t c, In t hdb -> hhidden (tb_name t) c -> tb_pk t <> [] /\ seen hhidden (tb_name t) (tb_pk t)) /\
  (forall n fk, source_fk (henv hmail) (hcfg o hfilters) hplan n fk -> seen hhidden n (fk_cols fk) /\ seen hhidden (fk_dst fk) (fk_dst_cols fk)) /\
  (forall t n c, named t n -> In t (dkeys (p_queries hplan)) -> hhidden n c -> overwritten (filters_of (hcfg o hfilters) t) c) /\
  HiddenSpec.blind hhidden (henv hmail) (hcfg o hfilters) hplan /\ dkeys (p_queries hplan) = ["a.user"; "a.grp"].
Proof.
  intros o. pose proof (h_planned hmail) as Hp.
  assert (Hseen : forall n fk, n = ("a", "user") /\ fk = mkFK ["gid"] ("a", "grp") ["gid"] -> seen hhidden n (fk_cols fk) /\ seen hhidden (fk_dst fk) (fk_dst_cols fk)).
  { intros n fk [-> ->]. split; intros c [<-|[]] [_ Hc]; discriminate Hc. }
  assert (Hc : config_blind hhidden (henv hmail) hplanner).
  { split; [|split; [intros s n cs c []|]].
    - intros n fk (_ & [[[Hd|[Hi _]] _]|(x & [] & _)]); [|destruct (Hi eq_refl)]. apply Hseen. exact (h_fk n fk Hd).
    - intros n g (s & [Eq|[]] & _). injection Eq as <- <-. split; [intros c x []|]. split; [intros c x [Eq|[]]; injection Eq as <- <-; intros [_ Hh]; discriminate Hh|]. intros s Hs. discriminate Hs. }
  assert (He : env_ok (henv hmail)).
  { split; [intros l; apply Permutation_refl|]. split; [exact xz_ok|]. intros ph n ks. destruct (rank_by_ok xkey ks) as [Hr _]. apply Permutation_length in Hr. rewrite seq_length in Hr. exact Hr. }
  assert (Ho : forall ph n, oblivious hhidden (en_rnd (henv hmail) ph n)) by (intros ph n; split; [reflexivity|intros m l l' H; exact H]).
  assert (Hid : forall n, ~ hhidden n id_column) by (intros n [_ Hn]; discriminate Hn).
  assert (Hk : forall t c, In t hdb -> hhidden (tb_name t) c -> tb_pk t <> [] /\ seen hhidden (tb_name t) (tb_pk t)).
  { intros t c [<-|[<-|[]]] [Hn _]; [|discriminate Hn]. split; [discriminate|]. intros k [<-|[]] [_ Hh]. discriminate Hh. }
  assert (Hf : forall n fk, source_fk (henv hmail) (hcfg o hfilters) hplan n fk -> seen hhidden n (fk_cols fk) /\ seen hhidden (fk_dst fk) (fk_dst_cols fk)).
  { intros n fk (ms & mt & Hms & Hm & Hfk). apply Hseen. vm_compute in Hms. injection Hms as <-. apply dget_In in Hm. destruct Hm as [Eq|[Eq|[]]]; injection Eq as <- <-; cbn in Hfk; [|contradiction].
    destruct Hfk as [<-|[]]. auto. }
  assert (Hw : forall t n c, named t n -> In t (dkeys (p_queries hplan)) -> hhidden n c -> overwritten (filters_of (hcfg o hfilters) t) c).
  { intros t n c Hn Ht [-> ->]. vm_compute in Ht. destruct Ht as [<-|[<-|[]]]; [|apply parse_named in Hn; discriminate Hn].
    eexists [_], _, []. split; [reflexivity|]. split; [|left; reflexivity]. intros f [<-|[]] [(k & [<-|[]] & [Hc'|[]])|Hc']; discriminate Hc'. }
  split; [exact Hp|]. split; [exact Hc|]. split.
  { split; [apply h_source|]. split; [apply h_source|]. intros n. unfold henv, hsource. cbn [en_source]. destruct (eqb n ("a", "user")) eqn:En.
    - apply (proj1 (eqb_true n ("a", "user"))) in En. subst n. repeat constructor; right; split; reflexivity.
    - destruct (eqb n ("a", "grp")); repeat constructor. }
  split; [exact He|]. split; [exact Ho|]. split; [exact Hid|]. split; [exact Hk|]. split; [exact Hf|]. split; [exact Hw|].
  split; [exact (planned_runs_blind Hp Hc He Ho Hid Hk Hf Hw)|vm_compute; reflexivity].
Qed.
(** What is written, whatever the addresses are; and, as JSON files, the same rows. *)
Example C108_case : forall src, In src [hsource hmail; hsource hother] ->
  let '(w', r) := sample (with_source (henv hmail) src) (hcfg hout hfilters) hplan false false tt hbefore in r = Ok tt /\
  rows_of (w_dest w') ("a", "user") =
    [ [("id", VInt 2); ("gid", VInt 4); ("name", VStr "ann"); ("email", VStr "user@example.org")]; [("id", VInt 3); ("gid", VInt 5); ("name", VStr "ann"); ("email", VStr "user@example.org")];
      [("id", VInt 4); ("gid", VInt 2); ("name", VStr "bob"); ("email", VStr "user@example.org")]; [("id", VInt 5); ("gid", VInt 3); ("name", VStr "bob"); ("email", VStr "user@example.org")] ].
Proof. intros src [<-|[<-|[]]]; vm_compute; split; reflexivity. Qed.
Example C108_directory_case :
  let '(w', r) := sample (henv hother) (hcfg (ToDirectory "out") hfilters) hplan false false tt hbefore in r = Ok tt /\ length (ds_files (w_dest w')) = 2 /\
  (w', r) = sample (henv hmail) (hcfg (ToDirectory "out") hfilters) hplan false false tt hbefore.
Proof. vm_compute. repeat split; reflexivity. Qed.
(** The filters are needed: without them, and after one that only sets values to the zero of their type, the runs differ. *)
Example C108_filters_needed : forall fs, In fs [ []; [FcSimple (SfZero ["email"])] ] ->
  let c := hcfg hout [("a.user", fs)] in
  rows_of (w_dest (fst (sample (henv hmail) c hplan false false tt hbefore))) ("a", "user") <>
  rows_of (w_dest (fst (sample (henv hother) c hplan false false tt hbefore))) ("a", "user").
Proof. intros fs [<-|[<-|[]]]; vm_compute; discriminate. Qed.
(** So is the rest: if the target looks at the addresses, the number of rows tells something about them. *)
Definition hlooking : config := mkConfig [] ["a.user"] [("a.user", mkTarget false None None [] [("email", [LStr "ann@work.org"])] None)] [] [] [] [] InferNone true.
Example C108_plan_needed : exists q, plan_db PlannerProps.idl PlannerProps.idl PlannerProps.xfnm hlooking hdb = Ok q /\
  length (rows_of (w_dest (fst (sample (henv hmail) (hcfg hout hfilters) q false false tt hbefore))) ("a", "user")) = 2 /\
  rows_of (w_dest (fst (sample (henv hother) (hcfg hout hfilters) q false false tt hbefore))) ("a", "user") = [].
Proof. eexists. split; [vm_compute; reflexivity|]. vm_compute. split; reflexivity. Qed.
