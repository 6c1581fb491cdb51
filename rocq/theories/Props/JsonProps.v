(** Property C106: files of output are read back as the rows.  [repr] is [float.__repr__], [str] is Python's [str]. *)
From Verif Require Import Model.Base Model.Value Model.Json Spec.JsonSpec Proofs.JsonFacts.
Open Scope string_scope.
Open Scope list_scope.

Section Props.
Variable repr : Q -> string.
Variable str : value -> string.
(** One line per row; a reader of JSON accepts each line and finds the row's columns and values. *)
Theorem C106_lines : forall rows, writes_floats repr ->
  exists ls, text repr str rows = String.concat "" (map (fun l => l ++ newline)%string ls) /\
    Forall2 (fun r l => one_line l /\ (exists j, document l j) /\ forall j, document l j -> record repr str r j) rows ls.
Proof. intros rows H. exact (text_lines str H rows). Qed.
(** Files with the same text have the same rows, apart from values that JSON does not have. *)
Theorem C106_determined : forall rows rows', writes_floats repr -> text repr str rows = text repr str rows' ->
  Forall2 (Forall2 (fun kv kv' => fst kv = fst kv' /\ (own (snd kv) -> own (snd kv') -> same_value (snd kv) (snd kv')))) rows rows'.
Proof. intros rows rows' H. exact (text_determines (str := str) H (rows := rows) (rows' := rows')). Qed.
(** JSON itself can be read in one way only. *)
Theorem C106_unambiguous : forall s j j', document s j -> document s j' -> j = j'.
Proof. intros s j j' H H'. exact (proj1 (reads_fun H H')). Qed.
End Props.
Print Assumptions C106_lines.
Print Assumptions C106_determined.
Print Assumptions C106_unambiguous.

(** A case: two rows, with quotes, a newline, a character outside ASCII, a float and a date. *)
Definition jstr (v : value) : string := match v with VDate _ _ => "2020-01-01 00:00:00" | _ => "b'?'" end.
Definition jtext := text fraction jstr.
Definition jrow : row := [("id", VInt (-12)); ("na" ++ String "034" "me", VStr (String "010" ("\" ++ String "233" "x")))]%string.
Definition jrow2 : row := [("ok", VBool true); ("x", VFloat (3 # 2)); ("at", VDate 5 None); ("no", VNull)].
Example C106_hypotheses : writes_floats fraction.
Proof. exact fraction_writes. Qed.
Definition jq : string := String "034" "".
Example C106_case : jtext [jrow; jrow2; []] = (
  "{" ++ jq ++ "id" ++ jq ++ ": -12, " ++ jq ++ "na\" ++ jq ++ "me" ++ jq ++ ": " ++ jq ++ "\n\\\u00e9x" ++ jq ++ "}" ++ newline ++
  "{" ++ jq ++ "ok" ++ jq ++ ": true, " ++ jq ++ "x" ++ jq ++ ": 3e2, " ++ jq ++ "at" ++ jq ++ ": " ++ jq ++ "2020-01-01 00:00:00" ++ jq ++ ", " ++ jq ++ "no" ++ jq ++ ": null}" ++ newline ++
  "{}" ++ newline)%string /\ one_line (line fraction jstr jrow).
Proof. split; [vm_compute; reflexivity|]. apply line_one_line. exact fraction_writes. Qed.
(** Dates are written as strings, so a string with the same characters cannot be told from them. *)
Example C106_limits : jtext [ [("at", VDate 5 None)] ] = jtext [ [("at", VStr "2020-01-01 00:00:00")] ].
Proof. vm_compute. reflexivity. Qed.
