(** The concrete runs used in Props/OutputProps.v: users, their orders, profiles (the key of a profile is that of its user), photos
    of profiles, and a log outside the plan. *)
From Coq Require Import Lia.
From Verif Require Import Model.Base Model.Value Model.Names Model.PlanModel Model.SqlAlgebra Model.Metadata Model.Planner Model.Filters Model.Multiply Model.Materialize Model.Dest Model.Output Model.Sampler.
From Verif Require Import Spec.GraphSpec Spec.SchemaSpec Spec.SqlSem Spec.PlannerSpec Spec.FilterSpec Spec.OutputSpec Spec.RunSpec.
From Verif Require Import Proofs.BaseFacts Proofs.NameFacts Proofs.MetadataMain Proofs.PlannerExamples Proofs.SampleExamples.
Open Scope string_scope.
Open Scope list_scope.

Definition users : table := mkTable ("s", "users") ["id"; "name"] ["id"] [] [].
Definition orders : table := mkTable ("s", "orders") ["id"; "uid"] ["id"] [mkFK ["uid"] ("s", "users") ["id"]] [].
Definition profile : table := mkTable ("s", "profile") ["id"] ["id"] [mkFK ["id"] ("s", "users") ["id"]] [].
Definition photo : table := mkTable ("s", "photo") ["id"; "pid"] ["id"] [mkFK ["pid"] ("s", "profile") ["id"]] [].
Definition ulog : table := mkTable ("s", "ulog") ["what"; "uid"] [] [mkFK ["uid"] ("s", "users") ["id"]] [].
Definition oschema : list table := [users; orders; profile; photo; ulog].
Definition osource (n : tname) : list row :=
  if eqb n ("s", "users") then [ [("id", VInt 1); ("name", VStr "a")]; [("id", VInt 2); ("name", VStr "b")] ]
  else if eqb n ("s", "orders") then [ [("id", VInt 10); ("uid", VInt 2)]; [("id", VInt 11); ("uid", VInt 1)]; [("id", VInt 12); ("uid", VNull)] ]
  else if eqb n ("s", "profile") then [ [("id", VInt 1)]; [("id", VInt 2)] ]
  else if eqb n ("s", "photo") then [ [("id", VInt 1); ("pid", VInt 2)] ]
  else [].
(** Filters without randomness; [sub] replaces a whole name. *)
Definition ofilters : filter_env unit :=
  mkFilterEnv (fun a _ g => Ok (a, g)) (fun a _ g => (a, g)) (fun _ g => (0, g)) (fun g => ("u", g)) (fun s _ g => Ok (VStr s, g))
    (fun _ _ => false) (fun _ _ r g => Ok (r, g)) (fun _ _ => false) (fun _ _ => Ok false) (fun _ _ => false) (fun _ _ => Ok false) (fun _ _ => Ok false)
    (fun _ _ => Ok false) (fun _ _ => Ok false) (fun _ _ => Ok false).
Definition osub (a b s : string) : string := if String.eqb s a then b else s.
Definition osets {A} (l : list A) : list A := l.
(** A column not given gets NULL, the key the number of rows plus 100. *)
Definition odflt (n : tname) (c : string) (l : list row) (r : row) : value := if String.eqb c "id" then VInt (100 + Z.of_nat (length l)) else VNull.
Definition oenv (accepts : dest -> event -> bool) (currval : tname -> option Z) : env unit :=
  Sampler.mkEnv ofilters String.eqb osub osets osets oschema osource (fun _ c => negb (String.eqb c "name")) (fun _ => true)
    xcmp xtext xraw xraw_cols xz xrank true odflt accepts (fun _ _ => false)
    (fun n => if eqb n ("s", "ulog") then None else Some "id") (fun _ c => negb (String.eqb c "name")) currval 1.
Definition oall (t : string) : string * table_query := (("s." ++ t)%string, all_of t).
Definition oplan (ts : list string) : plan := mkPlan (map oall ts) [].
Definition ocfg (c : db_config) : sampler_config := mkSampler (ToDatabase c) [] (mkMult 1 [] [] []) InferNone (mkCompact false false 1 []).
Definition yes (_ : dest) (_ : event) : bool := true.
Definition none (_ : tname) : option Z := None.
Definition odest (ts : list table) (rows : dict tname (list row)) (seq : dict tname Z) : world := mkWorld (mkDest ts rows seq []) [].
Definition orun (c : db_config) (ts : list string) (truncate create : bool) (w : world) := sample (oenv yes none) (ocfg c) (oplan ts) truncate create tt w.

(** [distinct_columns] for a concrete run. *)
Section Distinct.
Context {G : Type}.
Variables (E : env G) (cfg : sampler_config) (p : plan).
Definition distinctb : bool :=
  match sampler_meta (en_fnm E) (en_source_schema E) (p_queries p) (sc_infer cfg) with
  | Ok ms =>
    match get_compact_columns (sc_compact cfg) (p_passthrough p) ms (en_src_int E) (en_src_autoinc E) with
    | Ok compact =>
      match materialize_tables (en_source E) (en_cmp E) (en_text E) (en_raw E) (en_rnd E) (en_rank E) (en_reopen E)
              ms compact (cp_start (sc_compact cfg)) (en_ord_name E) (p_queries p) with
      | Ok st => forallb (fun t => match copy_table (en_source E) (en_cmp E) (en_text E) (en_raw E) (en_raw_cols E) (en_rnd E) (en_rank E) (en_reopen E)
                                           ms compact (cp_start (sc_compact cfg)) st (p_queries p) t with
                                   | Ok (Some co) => nodupb (co_cols co)
                                   | _ => true
                                   end) (dkeys (p_queries p))
      | Err _ => true
      end
    | Err _ => true
    end
  | Err _ => true
  end.
Lemma distinctb_true : distinctb = true -> distinct_columns E cfg p.
Proof.
  unfold distinctb. intros H ms compact st mults t co (E1 & _ & E2 & E3) Hr. rewrite E1, E2, E3 in H. unfold result_of in Hr. rewrite forallb_forall in H.
  assert (Hin : In t (dkeys (p_queries p))).
  { unfold copy_table in Hr. apply bind_Ok in Hr. destruct Hr as (n & _ & Hr). destruct (dget (p_queries p) t) as [q|] eqn:Eq; [exact (dget_Some_key Eq)|discriminate]. }
  specialize (H t Hin). cbn beta in H. rewrite Hr in H. apply nodupb_true. exact H.
Qed.
End Distinct.

(** What a concrete run computes for a table: the multiplied columns and the result. *)
Section Results.
Context {G : Type}.
Variables (E : env G) (cfg : sampler_config) (p : plan).
Definition results (t : string) : option (dict string (list string) * copied) :=
  match sampler_meta (en_fnm E) (en_source_schema E) (p_queries p) (sc_infer cfg) with
  | Ok ms =>
    match get_compact_columns (sc_compact cfg) (p_passthrough p) ms (en_src_int E) (en_src_autoinc E), get_multiplied_columns (sc_multiplicity cfg) ms (en_src_int E) (en_ord_str E) p with
    | Ok compact, Ok mults =>
      match materialize_tables (en_source E) (en_cmp E) (en_text E) (en_raw E) (en_rnd E) (en_rank E) (en_reopen E)
              ms compact (cp_start (sc_compact cfg)) (en_ord_name E) (p_queries p) with
      | Ok st => match copy_table (en_source E) (en_cmp E) (en_text E) (en_raw E) (en_raw_cols E) (en_rnd E) (en_rank E) (en_reopen E)
                         ms compact (cp_start (sc_compact cfg)) st (p_queries p) t with
                 | Ok (Some co) => Some (mults, co)
                 | _ => None
                 end
      | Err _ => None
      end
    | _, _ => None
    end
  | Err _ => None
  end.
Lemma results_spec ms compact st mults t co : computed_by E cfg p ms compact st mults -> result_of E cfg p ms compact st t co -> results t = Some (mults, co).
Proof. intros (E1 & E4 & E2 & E3) Hr. unfold results. rewrite E1, E2, E4, E3. unfold result_of in Hr. rewrite Hr. reflexivity. Qed.
End Results.

Lemma osub_plain accepts currval (P : tname -> Prop) : plain_names (en_fnm (oenv accepts currval)) P.
Proof. intros n s _. cbn. apply String.eqb_eq. Qed.
Lemma orun_ok accepts currval c ts w : distinctb (oenv accepts currval) (ocfg c) (oplan ts) = true -> db_okb (ds_tables (w_dest w)) = true ->
  run_ok (oenv accepts currval) (ocfg c) c (oplan ts) (w_dest w).
Proof.
  intros H Hd. constructor.
  - reflexivity.
  - apply db_okb_true. vm_compute. reflexivity.
  - apply db_okb_true. exact Hd.
  - intros l. apply Permutation_refl.
  - apply osub_plain.
  - apply distinctb_true. exact H.
Qed.

(** [fk_holds] for concrete rows. *)
Section Holds.
Variable cmpf : cmpop -> value -> value -> bool.
Fixpoint refersb (r r' : row) (cs ds : list string) : bool :=
  match cs, ds with
  | [], [] => true
  | c :: cs, d :: ds => negb (eqb (rget r c) VNull) && negb (eqb (rget r' d) VNull) && cmpf CEq (rget r c) (rget r' d) && refersb r r' cs ds
  | _, _ => false
  end.
Definition fk_holdsb (fk : fkey) (l l' : list row) : bool :=
  forallb (fun r => existsb (fun c => eqb (rget r c) VNull) (fk_cols fk) || existsb (fun r' => refersb r r' (fk_cols fk) (fk_dst_cols fk)) l') l.
Lemma refersb_iff r r' : forall cs ds, refersb r r' cs ds = true <->
  Forall2 (fun c d => rget r c <> VNull /\ rget r' d <> VNull /\ cmpf CEq (rget r c) (rget r' d) = true) cs ds.
Proof.
  induction cs as [|c cs IH]; intros [|d ds]; cbn [refersb]; (split; intros H); try discriminate; try constructor; try solve [inversion H].
  - apply andb_prop in H. destruct H as [H1 H2]. apply andb_prop in H1. destruct H1 as [H1 H3]. apply andb_prop in H1. destruct H1 as [H0 H1].
    apply negb_true_iff in H0. apply negb_true_iff in H1. split; [exact (proj1 (eqb_false _ _) H0)|]. split; [exact (proj1 (eqb_false _ _) H1)|exact H3].
  - apply IH. apply andb_prop in H. apply H.
  - inversion H as [|? ? ? ? (H1 & H2 & H3) H4]; subst. apply andb_true_intro. split; [|apply IH; exact H4]. apply andb_true_intro. split; [|exact H3].
    apply andb_true_intro. split; apply negb_true_iff; apply (proj2 (eqb_false _ _)); assumption.
Qed.
Lemma fk_holdsb_iff fk l l' : fk_holdsb fk l l' = true <-> fk_holds cmpf fk l l'.
Proof.
  unfold fk_holdsb, fk_holds. rewrite forallb_forall. split; intros H r Hr.
  - intros Hn. specialize (H r Hr). apply orb_prop in H. destruct H as [H|H].
    + apply existsb_exists in H. destruct H as (c & Hc & E). elim (Hn c Hc (proj1 (eqb_true _ _) E)).
    + apply existsb_exists in H. destruct H as (r' & Hr' & E). exists r'. split; [exact Hr'|]. apply refersb_iff. exact E.
  - destruct (existsb (fun c => eqb (rget r c) VNull) (fk_cols fk)) eqn:En; [reflexivity|]. cbn [orb]. destruct (H r Hr) as (r' & Hr' & E).
    + intros c Hc E. assert (X : existsb (fun c => eqb (rget r c) VNull) (fk_cols fk) = true) by (apply existsb_exists; exists c; split; [exact Hc|exact (proj2 (eqb_true _ _) E)]). congruence.
    + apply existsb_exists. exists r'. split; [exact Hr'|]. apply refersb_iff. exact E.
Qed.
(** All foreign keys of a schema hold. *)
Definition consistentb (db : list table) (rows : tname -> list row) : bool :=
  forallb (fun t => forallb (fun fk => fk_holdsb fk (rows (tb_name t)) (rows (fk_dst fk))) (tb_fks t)) db.
Lemma consistentb_true db rows : consistentb db rows = true ->
  forall t fk, In t db -> In fk (tb_fks t) -> fk_holds cmpf fk (rows (tb_name t)) (rows (fk_dst fk)).
Proof. intros H t fk Ht Hfk. unfold consistentb in H. rewrite forallb_forall in H. specialize (H t Ht). rewrite forallb_forall in H. apply fk_holdsb_iff. exact (H fk Hfk). Qed.
End Holds.
