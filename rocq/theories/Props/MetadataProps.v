(** Properties C24-C26 and C70: /repo/subsetter/metadata.py and parse_table_name of common.py. *)
From Verif Require Import Model.Base Model.Value Model.Names Model.Metadata Spec.GraphSpec Spec.SchemaSpec.
From Verif Require Import Proofs.NameFacts Proofs.MetadataFacts Proofs.MetadataMain.
Open Scope string_scope.
Open Scope list_scope.

(** C24.  For every reflected database, pattern list and pair of closure flags, [from_engine] returns,
    and: the tables returned are exactly the selected ones, each once, each with its own definition;
    first the matching tables, in database order, then the extra ones, which do not match. *)
Theorem C24_from_engine_closed : forall (fnm : string -> string -> bool) db patterns fwd bwd,
  db_ok db ->
  exists ms extra first, from_engine fnm db patterns fwd bwd = Ok (ms, extra) /\
    NoDup (dkeys ms) /\
    (forall n, In n (dkeys ms) <-> selected fnm db patterns fwd bwd n) /\
    (forall n m, In (n, m) ms -> exists t, table_of db n t /\ m = mkMeta t (tb_fks t) []) /\
    dkeys ms = first ++ extra /\
    (forall n, In n first <-> matching fnm db patterns n) /\
    (forall n, In n extra <-> selected fnm db patterns fwd bwd n /\ ~ matching fnm db patterns n).
Proof. exact from_engine_closed. Qed.
Print Assumptions C24_from_engine_closed.

(** C25.  Inference changes nothing but foreign keys; it appends to those of table [n] exactly the
    references [c -> d.c] described by [sole_pk] that are not there yet, each once. *)
Theorem C25_infer_exact : forall infer_all (ms : meta), meta_ok ms ->
  dkeys (infer_missing_foreign_keys infer_all ms) = dkeys ms /\
  forall n m, In (n, m) ms -> NoDup (tb_cols (tm_table m)) ->
    exists new, In (n, mkMeta (tm_table m) (tm_fks m ++ new) (tm_rev m)) (infer_missing_foreign_keys infer_all ms) /\
      NoDup new /\
      forall fk, In fk new <->
        ~ In fk (tm_fks m) /\
        exists c d, fk = mkFK [c] d [c] /\ In c (tb_cols (tm_table m)) /\ sole_pk infer_all ms (fst n) c d /\ d <> n.
Proof. exact infer_exact. Qed.
Print Assumptions C25_infer_exact.

Theorem C25_infer_idempotent : forall infer_all (ms : meta), meta_ok ms ->
  infer_missing_foreign_keys infer_all (infer_missing_foreign_keys infer_all ms) = infer_missing_foreign_keys infer_all ms.
Proof. exact infer_idempotent. Qed.
Print Assumptions C25_infer_idempotent.

(** C26.  [count_occ] counts: the reverse key [dst_cols <- src.cols] is added to table [n] once for each
    foreign key [cols -> n.dst_cols] of [src]. *)
Theorem C26_reverse_keys : forall (ms : meta), meta_ok ms ->
  (forall src m fk, In (src, m) ms -> In fk (tm_fks m) -> In (fk_dst fk) (dkeys ms)) ->
  exists ms', compute_reverse_keys ms = Ok ms' /\ dkeys ms' = dkeys ms /\
    forall n m, In (n, m) ms ->
      exists new, In (n, mkMeta (tm_table m) (tm_fks m) (tm_rev m ++ new)) ms' /\
        forall cols src src_cols,
          count_occ eq_dec new (mkFK cols src src_cols) =
          match dget ms src with
          | Some s => count_occ eq_dec (tm_fks s) (mkFK src_cols n cols)
          | None => 0
          end.
Proof. exact reverse_keys_exact. Qed.
Print Assumptions C26_reverse_keys.

Theorem C26_reverse_keys_raises : forall (ms : meta), meta_ok ms ->
  compute_reverse_keys ms = Err MeKeyError <->
  exists src m fk, In (src, m) ms /\ In fk (tm_fks m) /\ ~ In (fk_dst fk) (dkeys ms).
Proof. exact reverse_keys_raises. Qed.
Print Assumptions C26_reverse_keys_raises.

(** C70.  [None] is the ValueError. *)
Theorem C70_parse_table_name : forall s t : string, no_dot s ->
  parse_table_name (s ++ "." ++ t) = Some (s, t).
Proof. exact parse_of_parts. Qed.
Print Assumptions C70_parse_table_name.

Theorem C70_parse_only : forall (x s t : string), parse_table_name x = Some (s, t) ->
  x = (s ++ "." ++ t)%string /\ no_dot s.
Proof. exact parse_only. Qed.
Print Assumptions C70_parse_only.

Theorem C70_parse_fails : forall x : string, parse_table_name x = None <-> no_dot x.
Proof. exact parse_fails. Qed.
Print Assumptions C70_parse_fails.

(** A database: a.child(id, parent_id, org) -> a.parent(parent_id), a.parent(parent_id, grp) -> b.grp,
    b.grp(grp), a.org(org). *)
Definition db1 : list table :=
  [ mkTable ("a", "child") ["id"; "parent_id"; "org"] ["id"] [mkFK ["parent_id"] ("a", "parent") ["parent_id"]] [];
    mkTable ("a", "parent") ["parent_id"; "grp"] ["parent_id"] [mkFK ["grp"] ("b", "grp") ["grp"]] [];
    mkTable ("b", "grp") ["grp"] ["grp"] [] [];
    mkTable ("a", "org") ["org"] ["org"] [] [] ].
Example db1_ok : db_ok db1.
Proof. exact (db_okb_true db1 eq_refl). Qed.
Example db1_select :
  from_engine (fun s p => eqb s p) db1 ["a.child"] true false =
  Ok (map (fun t => (tb_name t, new_meta t)) (firstn 3 db1), [("a", "parent"); ("b", "grp")]).
Proof. reflexivity. Qed.
Example db1_meta_ok : meta_ok (map (fun t => (tb_name t, new_meta t)) db1).
Proof. exact (db_meta_ok _ db1_ok). Qed.
Example db1_infer :
  map (fun nm => tm_fks (snd nm)) (infer_missing_foreign_keys false (map (fun t => (tb_name t, new_meta t)) db1)) =
  [ [mkFK ["parent_id"] ("a", "parent") ["parent_id"]; mkFK ["org"] ("a", "org") ["org"]];
    [mkFK ["grp"] ("b", "grp") ["grp"]]; []; [] ].
Proof. reflexivity. Qed.
Example db1_reverse :
  match compute_reverse_keys (map (fun t => (tb_name t, new_meta t)) db1) with
  | Ok ms => map (fun nm => tm_rev (snd nm)) ms = [ []; [mkFK ["parent_id"] ("a", "child") ["parent_id"]]; [mkFK ["grp"] ("a", "parent") ["grp"]]; [] ]
  | Err _ => False
  end.
Proof. reflexivity. Qed.
Example db1_reverse_raises :
  compute_reverse_keys (map (fun t => (tb_name t, new_meta t)) (firstn 1 db1)) = Err MeKeyError.
Proof. reflexivity. Qed.
