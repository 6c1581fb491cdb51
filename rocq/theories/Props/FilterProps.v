(** Filter properties C61-C69.  Every theorem quantifies over the random generator (its state [G] and its
    operations), Faker, the plugins and Python's comparison operators. *)
From Coq Require Import Lia.
From Verif Require Import Model.Base Model.Value Model.Filters Spec.FilterSpec Proofs.BaseFacts Proofs.FilterFacts Proofs.FilterMain.

Section Props.
Context {G : Type}.
Variable randint : Z -> Z -> G -> res filter_exn (Z * G).
Variable uniform : Q -> Q -> G -> Q * G.
Variable rand_index : nat -> G -> nat * G.
Variable uuid4 : G -> string * G.
Variable fake : string -> bool -> G -> res filter_exn (value * G).
Variable load_plugin : string -> string -> bool.
Variable plugin : string -> string -> list value -> G -> res filter_exn (list value * G).
Variable py_is : value -> mvalue -> bool.
Variable py_in : value -> mvalue -> res filter_exn bool.
Variable py_eq : value -> mvalue -> bool.
Variable py_lt py_gt py_le py_ge : value -> mvalue -> res filter_exn bool.
Variable py_fnmatch : value -> mvalue -> res filter_exn bool.

Notation run_filter := (apply_sview randint uniform rand_index uuid4 fake plugin).
Notation run_view := (apply_view randint uniform rand_index uuid4 fake plugin py_is py_in py_eq py_lt py_gt py_le py_ge py_fnmatch).
Notation run_chain := (apply_chain randint uniform rand_index uuid4 fake plugin py_is py_in py_eq py_lt py_gt py_le py_ge py_fnmatch).
Notation construct := (construct_chain load_plugin).
Notation construct_filter := (construct_simple load_plugin).
Notation condition_holds := (holds py_is py_eq py_in py_lt py_gt py_le py_ge py_fnmatch).

(** C61: one output value per output column. *)
Theorem C61_columns_tracked : forall fs cols chain out r g r' g',
  construct fs cols = Ok (chain, out) -> length r = length cols -> run_chain chain r g = Ok (r', g') ->
  length r' = length out.
Proof. intros; eapply chain_length; eassumption. Qed.

(** C62: a column no filter names keeps its value, and stays. *)
Theorem C62_other_columns_unchanged : forall fs cols chain out r g r' g' c,
  NoDup cols -> construct fs cols = Ok (chain, out) -> length r = length cols ->
  run_chain chain r g = Ok (r', g') -> (forall f, In f fs -> ~ may_change f c) ->
  value_of out r' c = value_of cols r c /\ (In c cols -> In c out).
Proof. intros; eapply chain_untouched; eassumption. Qed.

(** C63: a hidden column never leaks: rows that differ in it only give the same result, errors and further
    random choices included. *)
Theorem C63_hidden_columns_never_leak : forall pre s post cols chain out r1 r2 g c,
  NoDup cols -> construct (pre ++ FcSimple s :: post) cols = Ok (chain, out) ->
  (forall f, In f pre -> ~ mentions f c) -> hides s c ->
  length r1 = length cols -> length r2 = length cols -> differ_only cols r1 r2 c ->
  run_chain chain r1 g = run_chain chain r2 g.
Proof. intros; eapply chain_hides; eassumption. Qed.

(** C64: what holds of plugins: the acted-on columns get the returned values, as far as these go. *)
Theorem C64_plugin_replaces_partial : forall cols cs m k v r g,
  NoDup cols -> construct_filter (SfPlugin cs m k) cols = Ok v -> length r = length cols ->
  exists given, Forall2 (fun c x => value_of cols r c = Some x) cs given /\
  match plugin m k given g with
  | Err e => run_filter v r g = Err e
  | Ok (returned, g') => exists r', run_filter v r g = Ok (r', g') /\
      forall i c, nth_error cs i = Some c -> i < length returned -> value_of cols r' c = nth_error returned i
  end.
Proof. intros; eapply plugin_replaces; eassumption. Qed.

(** C65: omit removes exactly the named columns. *)
Theorem C65_omit_exact : forall cols cs v r g,
  NoDup cols -> construct_filter (SfOmit cs) cols = Ok v -> length r = length cols ->
  exists r', run_filter v r g = Ok (r', g) /\
    combine (sv_out v) r' = filter (fun cv => negb (memb (fst cv) cs)) (combine cols r) /\
    length r' = length (sv_out v).
Proof. intros; eapply omit_exact; eassumption. Qed.

(** C66: a filter is rejected, with ValueError, exactly for a bad column list or bad parameters; omit never is. *)
Theorem C66_rejects_exactly : forall cols s,
  (construct_filter s cols = Err FxValueError <->
     match s with SfOmit _ => False | _ => bad_columns (named_columns s) cols \/ bad_parameters load_plugin s end) /\
  (forall e, construct_filter s cols = Err e -> e = FxValueError).
Proof. intros. apply construct_rejects. Qed.

(** ... a multiplex when its column is absent, or one of its filters is rejected or changes the columns. *)
Theorem C66_rejects_multiplex : forall cols col conds,
  (exists e, construct_view load_plugin (FcMultiplex col conds) cols = Err e) <->
  ~ In col cols \/ exists k, In k conds /\
    ((exists e, construct_filter (mc_apply k) cols = Err e) \/
     exists v, construct_filter (mc_apply k) cols = Ok v /\ sv_out v <> cols).
Proof. intros. apply multiplex_rejects. Qed.

(** ... and a chain exactly when one of its filters is, given the columns at that point of the chain. *)
Theorem C66_rejects_chain : forall fs cols e, construct fs cols = Err e <->
  exists pre f post vs mid, fs = pre ++ f :: post /\ construct pre cols = Ok (vs, mid) /\
    construct_view load_plugin f mid = Err e.
Proof. intros. apply chain_fails. Qed.

(** C67: the first condition that holds decides; without one the row is unchanged; columns never change. *)
Theorem C67_first_match : forall cols col conds v r g x,
  NoDup cols -> construct_view load_plugin (FcMultiplex col conds) cols = Ok v -> value_of cols r col = Some x ->
  vw_out v = cols /\
  (forall pre k post, conds = pre ++ k :: post ->
     (forall k', In k' pre -> condition_holds k' x false) -> condition_holds k x true ->
     exists f, construct_filter (mc_apply k) cols = Ok f /\ run_view v r g = run_filter f r g) /\
  ((forall k, In k conds -> condition_holds k x false) -> run_view v r g = Ok (r, g)).
Proof. intros; eapply multiplex_first; eassumption. Qed.

(** C68: zero depends on the type only, and keeps it; it fails for other types. *)
Theorem C68_zero : forall cols cs v r g,
  NoDup cols -> construct_filter (SfZero cs) cols = Ok v -> length r = length cols ->
  ((exists c x, In c cs /\ value_of cols r c = Some x /\ type_of x = TyOther) /\ run_filter v r g = Err FxValueError) \/
  exists r', run_filter v r g = Ok (r', g) /\
    forall c x, In c cs -> value_of cols r c = Some x -> exists y,
      zero_of (type_of x) = Some y /\ value_of cols r' c = Some y /\ type_of y = type_of x.
Proof. intros; eapply zero_filter; eassumption. Qed.

(** C69: random strings, provided [choices] picks indexes inside the alphabet. *)
Theorem C69_random_string : forall cols cs len al custom v r g r' g',
  (forall n g, 0 < n -> fst (rand_index n g) < n) ->
  NoDup cols -> construct_filter (SfRandomString cs len al custom) cols = Ok v -> length r = length cols ->
  run_filter v r g = Ok (r', g') ->
  forall c, In c cs -> exists s, value_of cols r' c = Some (VStr s) /\
    String.length s = Z.to_nat len /\ forall ch, In ch (chars s) -> in_alphabet al custom ch.
Proof. intros; eapply random_string_filter; eassumption. Qed.
End Props.

Print Assumptions C61_columns_tracked.
Print Assumptions C62_other_columns_unchanged.
Print Assumptions C63_hidden_columns_never_leak.
Print Assumptions C64_plugin_replaces_partial.
Print Assumptions C65_omit_exact.
Print Assumptions C66_rejects_exactly.
Print Assumptions C66_rejects_multiplex.
Print Assumptions C66_rejects_chain.
Print Assumptions C67_first_match.
Print Assumptions C68_zero.
Print Assumptions C69_random_string.

(** * Concrete cases *)
Open Scope string_scope.
Definition x_randint (lo hi : Z) (g : nat) : res filter_exn (Z * nat) := Ok ((lo + Z.of_nat g mod (hi - lo + 1))%Z, S g).
Definition x_uniform (lo hi : Q) (g : nat) : Q * nat := (lo, S g).
Definition x_index (n g : nat) : nat * nat := (Nat.modulo g n, S g).
Definition x_uuid (g : nat) : string * nat := ("uuid", S g).
Definition x_fake (op : string) (u : bool) (g : nat) : res filter_exn (value * nat) := Ok (VStr op, S g).
Definition x_load (m c : string) : bool := eqb m "good".
Definition x_plugin (m c : string) (vs : list value) (g : nat) : res filter_exn (list value * nat) := Ok ([], g).
Definition x_is (v : value) (w : mvalue) : bool := match v, w with VNull, MvOne VNull => true | _, _ => false end.
Definition x_eq (v : value) (w : mvalue) : bool := match w with MvOne w => eqb v w | _ => false end.
Definition x_cmp (v : value) (w : mvalue) : res filter_exn bool := Err FxTypeError.
Definition x_cols := ["id"; "name"; "mail"; "kind"].
Definition x_row (mail : string) := [VInt 7; VStr "Ann"; VStr mail; VStr "a"].
Definition x_chain : list filter_config :=
  [ FcMultiplex "kind" [mkCond MEq (MvOne (VStr "b")) (SfNull ["name"]); mkCond MNe (MvOne (VStr "b")) (SfZero ["name"])];
    FcSimple (SfRandomString ["mail"] 3 "hex" None);
    FcSimple (SfOmit ["kind"]) ].
Notation x_run := (apply_chain x_randint x_uniform x_index x_uuid x_fake x_plugin x_is x_cmp x_eq x_cmp x_cmp x_cmp x_cmp x_cmp).

Example filters_case : exists chain,
  construct_chain x_load x_chain x_cols = Ok (chain, ["id"; "name"; "mail"]) /\
  x_run chain (x_row "ann@x") 9 = Ok ([VInt 7; VStr ""; VStr "9ab"], 12) /\
  x_run chain (x_row "bob@y") 9 = x_run chain (x_row "ann@x") 9.
Proof. eexists. split; [reflexivity|]. split; reflexivity. Qed.

Example C61_case : exists chain out r g, construct_chain x_load x_chain x_cols = Ok (chain, out) /\
  x_run chain (x_row "ann@x") 9 = Ok (r, g) /\ length r = length out.
Proof.
  do 4 eexists. split; [reflexivity|]. split; [reflexivity|].
  eapply (C61_columns_tracked x_randint x_uniform x_index x_uuid x_fake x_load x_plugin x_is x_cmp x_eq x_cmp x_cmp x_cmp x_cmp x_cmp
    x_chain x_cols _ _ (x_row "ann@x") 9); reflexivity.
Qed.

Lemma x_cols_NoDup : NoDup x_cols.
Proof. repeat constructor; cbn; intuition discriminate. Qed.

(** the column "id" is named by no filter of the chain *)
Example C62_case : exists chain out r g, construct_chain x_load x_chain x_cols = Ok (chain, out) /\
  x_run chain (x_row "ann@x") 9 = Ok (r, g) /\ value_of out r "id" = Some (VInt 7).
Proof.
  do 4 eexists. split; [reflexivity|]. split; [reflexivity|].
  eapply (C62_other_columns_unchanged x_randint x_uniform x_index x_uuid x_fake x_load x_plugin x_is x_cmp x_eq x_cmp x_cmp x_cmp x_cmp x_cmp
    x_chain x_cols _ _ (x_row "ann@x") 9); [exact x_cols_NoDup|reflexivity|reflexivity|reflexivity|].
  intros f [<-|[<-|[<-|[]]]]; cbn; [|intuition discriminate|intuition discriminate].
  intros (k & [<-|[<-|[]]] & H); cbn in H; intuition discriminate.
Qed.

Example C63_case : forall m1 m2 g chain out, construct_chain x_load x_chain x_cols = Ok (chain, out) ->
  x_run chain (x_row m1) g = x_run chain (x_row m2) g.
Proof.
  intros m1 m2 g chain out C.
  eapply (C63_hidden_columns_never_leak x_randint x_uniform x_index x_uuid x_fake x_load x_plugin x_is x_cmp x_eq x_cmp x_cmp x_cmp x_cmp x_cmp
    [FcMultiplex "kind" [mkCond MEq (MvOne (VStr "b")) (SfNull ["name"]); mkCond MNe (MvOne (VStr "b")) (SfZero ["name"])]]
    (SfRandomString ["mail"] 3 "hex" None) [FcSimple (SfOmit ["kind"])] x_cols chain out (x_row m1) (x_row m2) g "mail");
    [exact x_cols_NoDup|exact C| |left; reflexivity|reflexivity|reflexivity|].
  - intros f [<-|[]] [(k & [<-|[<-|[]]] & H)|H]; cbn in H; intuition discriminate.
  - intros c Hc. unfold value_of. cbn. repeat (destruct eq_dec; try congruence).
Qed.

(** C64 is false of the code: a plugin that returns nothing leaves the original value in place. *)
Theorem C64_plugin_leaks_refuted : exists plug cs cols v r r' g',
  construct_simple x_load (SfPlugin cs "good" "K") cols = Ok v /\ length r = length cols /\
  apply_sview x_randint x_uniform x_index x_uuid x_fake plug v r 0 = Ok (r', g') /\
  exists c x, In c cs /\ value_of cols r c = Some x /\ value_of cols r' c = Some x /\
    (forall vs g fs g', plug "good" "K" vs g = Ok (fs, g') -> ~ In x fs).
Proof.
  exists x_plugin, ["mail"], x_cols. eexists. exists (x_row "ann@x"), (x_row "ann@x"), 0. split; [reflexivity|]. split; [reflexivity|]. split; [reflexivity|].
  exists "mail", (VStr "ann@x"). repeat split; auto; [left; auto|].
  intros vs g fs g' H. injection H as <- <-. intros [].
Qed.
Print Assumptions C64_plugin_leaks_refuted.

Definition x_plugin2 (m c : string) (vs : list value) (g : nat) : res filter_exn (list value * nat) := Ok (map (fun _ => VStr "x") vs, g).
Example C64_case : exists v, construct_simple x_load (SfPlugin ["mail"; "name"] "good" "K") x_cols = Ok v /\
  apply_sview x_randint x_uniform x_index x_uuid x_fake x_plugin2 v (x_row "ann@x") 0 =
    Ok ([VInt 7; VStr "x"; VStr "x"; VStr "a"], 0).
Proof. eexists. split; reflexivity. Qed.

Example C65_case : exists v, construct_simple x_load (SfOmit ["name"; "ghost"]) x_cols = Ok v /\ sv_out v = ["id"; "mail"; "kind"] /\
  apply_sview x_randint x_uniform x_index x_uuid x_fake x_plugin v (x_row "ann@x") 0 = Ok ([VInt 7; VStr "ann@x"; VStr "a"], 0).
Proof. eexists. split; [reflexivity|]. split; reflexivity. Qed.

Example C66_case : construct_simple x_load (SfNull ["id"; "ghost"]) x_cols = Err FxValueError /\
  construct_simple x_load (SfNull ["id"; "id"]) x_cols = Err FxValueError /\
  construct_simple x_load (SfNull []) x_cols = Err FxValueError /\
  construct_simple x_load (SfRandomString ["id"] 4 "custom" (Some "")) x_cols = Err FxValueError /\
  construct_chain x_load [FcSimple (SfOmit ["id"]); FcSimple (SfNull ["id"])] x_cols = Err FxValueError /\
  exists v, construct_simple x_load (SfNull ["id"; "name"]) x_cols = Ok v.
Proof. repeat split; eexists; reflexivity. Qed.

Example C67_case : exists v,
  construct_view x_load (FcMultiplex "kind" [mkCond MIs (MvOne VNull) (SfNull ["id"]); mkCond MEq (MvOne (VStr "a")) (SfZero ["id"])]) x_cols = Ok v /\
  holds x_is x_eq x_cmp x_cmp x_cmp x_cmp x_cmp x_cmp (mkCond MIs (MvOne VNull) (SfNull ["id"])) (VStr "a") false /\
  holds x_is x_eq x_cmp x_cmp x_cmp x_cmp x_cmp x_cmp (mkCond MEq (MvOne (VStr "a")) (SfZero ["id"])) (VStr "a") true /\
  apply_view x_randint x_uniform x_index x_uuid x_fake x_plugin x_is x_cmp x_eq x_cmp x_cmp x_cmp x_cmp x_cmp v (x_row "m") 0 =
    Ok ([VInt 0; VStr "Ann"; VStr "m"; VStr "a"], 0).
Proof. eexists. repeat split; reflexivity. Qed.

Example C68_case : exists v, construct_simple x_load (SfZero ["id"; "d"; "n"]) ["id"; "d"; "n"] = Ok v /\
  apply_sview x_randint x_uniform x_index x_uuid x_fake x_plugin v [VBool true; VDate 99 (Some "UTC"); VNull] 0 =
    Ok ([VInt 0; VDate 0 (Some "UTC"); VNull], 0) /\
  apply_sview x_randint x_uniform x_index x_uuid x_fake x_plugin v [VBool true; VOther 1; VNull] 0 = Err FxValueError.
Proof. eexists. repeat split; reflexivity. Qed.

Example C69_case : (forall n g, 0 < n -> fst (x_index n g) < n) /\
  exists v, construct_simple x_load (SfRandomString ["mail"] 4 "custom" (Some "xyz")) x_cols = Ok v /\
  apply_sview x_randint x_uniform x_index x_uuid x_fake x_plugin v (x_row "m") 1 =
    Ok ([VInt 7; VStr "Ann"; VStr "yzxy"; VStr "a"], 5).
Proof. split; [intros n g H; cbn; apply Nat.mod_upper_bound; lia|]. eexists. split; reflexivity. Qed.
