(** Properties C37-C39: multiplicity (sampler.py _multiply_column, _get_multiplied_columns). *)
From Coq Require Import Permutation.
From Verif Require Import Model.Base Model.Value Model.Names Model.PlanModel Model.Metadata Model.Multiply.
From Verif Require Import Spec.GraphSpec Spec.MultiplySpec Proofs.MultiplyFacts Proofs.MultiplyMain.
Open Scope string_scope.
Open Scope list_scope.

(** C37: for every multiplier [m] and all copy numbers below [m]. *)
Theorem C37_copies_distinct : forall m v1 i1 v2 i2 : Z, (0 <= i1 < m)%Z -> (0 <= i2 < m)%Z ->
  multiply_column (Some v1) m i1 = multiply_column (Some v2) m i2 -> v1 = v2 /\ i1 = i2.
Proof. exact multiply_inj. Qed.
Print Assumptions C37_copies_distinct.

Theorem C37_null : forall (v : option Z) (m i : Z), multiply_column v m i = None <-> v = None.
Proof. intros [v|] m i; split; intros; (discriminate || reflexivity). Qed.
Print Assumptions C37_null.

Example C37_case : multiply_column (Some (-3)%Z) 4 1 = Some (-11)%Z /\ multiply_column (Some (-2)%Z) 4 0 = Some (-8)%Z /\ (0 <= 1 < 4)%Z.
Proof. repeat split; discriminate. Qed.

(** C39: the result is the least set of [Spec/MultiplySpec.v], or ValueError exactly when an excluded
    table would need multiplying or a multiplied column is not integral. *)
Theorem C39_multiplied_columns : forall (cfg : mult_config) (ms : meta) (is_int : tname -> string -> bool)
    (ord : list string -> list string) (p : plan),
  any_order ord -> multiplicity_wf ms cfg p -> (1 < mc_multiplier cfg)%Z ->
  match get_multiplied_columns cfg ms is_int ord p with
  | Ok r =>
      ~ excluded_needs_multiplying ms cfg p /\ ~ multiplied_non_integer ms cfg p is_int /\
      (forall t, dmem r t = true <-> planned p t /\ ~ excluded cfg p t) /\
      (forall t cs, dget r t = Some cs -> NoDup cs /\ forall c, In c cs <-> multiplied ms cfg p t c)
  | Err e => e = MuValueError /\
      (excluded_needs_multiplying ms cfg p \/ multiplied_non_integer ms cfg p is_int)
  end.
Proof. exact multiplied_spec. Qed.
Print Assumptions C39_multiplied_columns.

(** The loop ends for every schema and configuration (also ill-formed ones). *)
Theorem C39_terminates : forall cfg ms is_int ord p,
  get_multiplied_columns cfg ms is_int ord p <> Err MuOutOfFuel.
Proof. exact multiplied_terminates. Qed.
Print Assumptions C39_terminates.

Theorem C39_disabled : forall cfg ms is_int ord p, (mc_multiplier cfg <= 1)%Z ->
  get_multiplied_columns cfg ms is_int ord p = Ok [].
Proof. intros cfg ms is_int ord p H. unfold get_multiplied_columns. apply Z.leb_le in H. rewrite H. reflexivity. Qed.
Print Assumptions C39_disabled.

(** C38: proved for foreign keys whose columns carry the same names as the columns they reference
    (for others the claim is false, [C38_copies_refuted]): the referencing columns are multiplied, ... *)
Theorem C38_referencing_columns_partial : forall cfg ms is_int ord p r,
  any_order ord -> multiplicity_wf ms cfg p -> (1 < mc_multiplier cfg)%Z ->
  get_multiplied_columns cfg ms is_int ord p = Ok r ->
  forall t m fk, planned p t -> source_table ms t m -> In fk (tm_fks m) -> fk_cols fk = fk_dst_cols fk ->
  forall c d, In (c, d) (combine (fk_cols fk) (fk_dst_cols fk)) ->
  In d (dget_or r (render (fk_dst fk)) []) -> In c (dget_or r t []).
Proof. exact same_named_followed. Qed.
Print Assumptions C38_referencing_columns_partial.

(** ... and copy [i] of a child row refers to copy [i] of its parent row, unless a column of the foreign
    key is multiplied on its own account although its target is not (a key column that references a
    passthrough table; README: ignore_primary_key_columns). *)
Theorem C38_copies_partial : forall cfg ms is_int ord p r,
  any_order ord -> multiplicity_wf ms cfg p -> (1 < mc_multiplier cfg)%Z ->
  get_multiplied_columns cfg ms is_int ord p = Ok r ->
  forall t m fk, planned p t -> source_table ms t m -> In fk (tm_fks m) -> fk_cols fk = fk_dst_cols fk ->
  (forall c, In c (fk_cols fk) -> In c (dget_or r t []) -> In c (dget_or r (render (fk_dst fk)) [])) ->
  forall i rc rp, refers_to fk rc rp ->
  refers_to fk (copy_row (mc_multiplier cfg) i (dget_or r t []) rc)
               (copy_row (mc_multiplier cfg) i (dget_or r (render (fk_dst fk)) []) rp).
Proof. exact copies_keep_fk. Qed.
Print Assumptions C38_copies_partial.

(** * Concrete cases *)
Definition mt n cols pk fks : string * string * tmeta :=
  (n, mkMeta (mkTable n cols pk fks []) fks []).
Definition tq : table_query := mkQuery None None None.

(** grp <- user <- post, all keys named alike; opt is passthrough. *)
Definition xm : meta :=
  [ mt ("a","grp") ["grp_id"] ["grp_id"] [];
    mt ("a","user") ["user_id"; "grp_id"; "code"] ["user_id"] [mkFK ["grp_id"] ("a","grp") ["grp_id"]];
    mt ("a","post") ["post_id"; "user_id"; "opt_id"] ["post_id"; "opt_id"]
       [mkFK ["user_id"] ("a","user") ["user_id"]; mkFK ["opt_id"] ("a","opt") ["opt_id"]];
    mt ("a","opt") ["opt_id"] ["opt_id"] [] ].
Definition xp : plan := mkPlan [("a.post", tq); ("a.user", tq); ("a.grp", tq); ("a.opt", tq)] ["a.opt"].
Definition xc : mult_config := mkMult 3 [("a.user", ["code"])] [] [("a.post", ["opt_id"])].
Definition xint : tname -> string -> bool := fun _ _ => true.
Definition xr : dict string (list string) :=
  [("a.post", ["post_id"; "user_id"]); ("a.user", ["code"; "user_id"; "grp_id"]); ("a.grp", ["grp_id"])].

Example C39_case : get_multiplied_columns xc xm xint (fun l => l) xp = Ok xr.
Proof. vm_compute. reflexivity. Qed.

(** Only columns of [xr] are multiplied. *)
Lemma xm_multiplied t c : multiplied xm xc xp t c -> In c (dget_or xr t []).
Proof.
  induction 1 as [t c Hp Hx Hin|t m c Hp Hx (n & Hn & Hs) Hin Hni|t m fk c Hp Hx (n & Hn & Hs) Hf Hc Hm IH];
    (destruct Hp as [<-|[<-|[<-|[<-|[]]]]]; cbn in *; [..|exfalso; apply Hx; left; left; reflexivity]).
  - destruct Hin.
  - tauto.
  - destruct Hin.
  - injection Hn as <-. cbn in Hs. injection Hs as <-. cbn in Hin. tauto.
  - injection Hn as <-. cbn in Hs. injection Hs as <-. cbn in Hin. tauto.
  - injection Hn as <-. cbn in Hs. injection Hs as <-. cbn in Hin. tauto.
  - injection Hn as <-. cbn in Hs. injection Hs as <-. cbn in Hf.
    destruct Hf as [<-|[<-|[]]]; cbn in *; [tauto|]. destruct IH.
  - injection Hn as <-. cbn in Hs. injection Hs as <-. cbn in Hf.
    destruct Hf as [<-|[]]; cbn in *; tauto.
  - injection Hn as <-. cbn in Hs. injection Hs as <-. cbn in Hf. tauto.
Qed.

Example C39_hyp : multiplicity_wf xm xc xp /\ (1 < mc_multiplier xc)%Z.
Proof.
  split; [|reflexivity]. split.
  - intros t [<-|[<-|[<-|[<-|[]]]]]; eexists; eexists; (split; [reflexivity|reflexivity]).
  - intros t m c H (n & Hn & Hs). pose proof (xm_multiplied _ _ H) as Hin.
    assert (planned xp t) as Hp by (destruct H; auto).
    destruct Hp as [<-|[<-|[<-|[<-|[]]]]]; cbn in Hn; injection Hn as <-; cbn in Hs; injection Hs as <-; cbn in *; tauto.
Qed.

(** ValueError: a passthrough table references a multiplied key; a multiplied key is not integral. *)
Example C39_passthrough_rejected :
  get_multiplied_columns xc xm xint (fun l => l) (mkPlan [("a.user", tq); ("a.grp", tq)] ["a.user"]) = Err MuValueError.
Proof. vm_compute. reflexivity. Qed.
Example C39_non_integer_rejected :
  get_multiplied_columns xc xm (fun n c => negb (eqb c "code")) (fun l => l) xp = Err MuValueError.
Proof. vm_compute. reflexivity. Qed.

(** The hypotheses of C38 for post.user_id -> user.user_id. *)
Example C38_case : forall i,
  refers_to (mkFK ["user_id"] ("a","user") ["user_id"])
    (copy_row 3 i (dget_or xr "a.post" []) [("post_id", VInt 1); ("user_id", VInt 7)])
    (copy_row 3 i (dget_or xr "a.user" []) [("user_id", VInt 7); ("grp_id", VInt 2)]).
Proof.
  intros i.
  refine (@C38_copies_partial xc xm xint (fun l => l) xp xr _ (proj1 C39_hyp) (proj2 C39_hyp) C39_case
            "a.post" (mkMeta (mkTable ("a","post") ["post_id"; "user_id"; "opt_id"] ["post_id"; "opt_id"]
       [mkFK ["user_id"] ("a","user") ["user_id"]; mkFK ["opt_id"] ("a","opt") ["opt_id"]] [])
       [mkFK ["user_id"] ("a","user") ["user_id"]; mkFK ["opt_id"] ("a","opt") ["opt_id"]] [])
            (mkFK ["user_id"] ("a","user") ["user_id"]) _ _ _ eq_refl _ i _ _ _).
  - intros l. apply Permutation_refl.
  - left. reflexivity.
  - exists ("a","post"). split; reflexivity.
  - left. reflexivity.
  - intros c [<-|[]] _. cbn. tauto.
  - intros c d [[= <- <-]|[]]. reflexivity.
Qed.

(** C38 is false for the usual naming child.parent_id -> parent.id: parent keys are multiplied, the
    references are not, so copy 1 of a child still holds the key of copy 0 or of another row. *)
Definition ym : meta :=
  [ mt ("a","parent") ["id"] ["id"] [];
    mt ("a","child") ["child_id"; "parent_id"] ["child_id"] [mkFK ["parent_id"] ("a","parent") ["id"]] ].
Definition yp : plan := mkPlan [("a.parent", tq); ("a.child", tq)] [].
Definition yc : mult_config := mkMult 2 [] [] [].
Theorem C38_copies_refuted : exists r fk rc rp,
  get_multiplied_columns yc ym xint (fun l => l) yp = Ok r /\
  (exists m, source_table ym "a.child" m /\ In fk (tm_fks m)) /\ fk_dst fk = ("a","parent") /\
  In "id" (dget_or r "a.parent" []) /\ ~ In "parent_id" (dget_or r "a.child" []) /\
  refers_to fk rc rp /\
  ~ refers_to fk (copy_row 2 1 (dget_or r "a.child" []) rc) (copy_row 2 1 (dget_or r "a.parent" []) rp).
Proof.
  exists [("a.parent", ["id"]); ("a.child", ["child_id"])], (mkFK ["parent_id"] ("a","parent") ["id"]),
    [("child_id", VInt 1); ("parent_id", VInt 5)], [("id", VInt 5)].
  split; [vm_compute; reflexivity|]. split.
  { eexists. split; [exists ("a","child"); split; reflexivity|left; reflexivity]. }
  split; [reflexivity|]. split; [left; reflexivity|]. split.
  { intros [X|[]]; discriminate. }
  split.
  - intros c d [[= <- <-]|[]]. reflexivity.
  - intros H. specialize (H "parent_id" "id" (or_introl eq_refl)). discriminate H.
Qed.
Print Assumptions C38_copies_refuted.
