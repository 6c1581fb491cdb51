(** Proofs about filters: construction, multiplex, zero, random strings. *)
From Coq Require Import Lia ListDec.
From Verif Require Import Model.Base Model.Value Model.Filters Spec.FilterSpec Proofs.BaseFacts Proofs.FilterFacts.
Set Implicit Arguments. Unset Strict Implicit.

Lemma filter_columns_iff cols cs a :
  (filter_columns cols cs a = Err FxValueError <-> bad_columns cs cols) /\
  (forall e, filter_columns cols cs a = Err e -> e = FxValueError).
Proof.
  unfold filter_columns. split.
  - rewrite <- (validate_iff cols cs). destruct (validate_and_index cols cs); cbn; split; congruence.
  - intros e. destruct (validate_and_index cols cs) eqn:E; cbn; [discriminate|].
    intros [= <-]. apply validate_Err in E. tauto.
Qed.

Section C.
Variable load_plugin : string -> string -> bool.
Notation csimple := (construct_simple load_plugin).
Notation cview := (construct_view load_plugin).
Notation cchain := (construct_chain load_plugin).

(** ** Construction *)
Theorem construct_rejects cols s :
  (csimple s cols = Err FxValueError <->
     match s with SfOmit _ => False | _ => bad_columns (named_columns s) cols \/ bad_parameters load_plugin s end) /\
  (forall e, csimple s cols = Err e -> e = FxValueError).
Proof.
  destruct s; cbn [construct_simple named_columns bad_parameters];
    try (destruct (filter_columns_iff cols cols0 AZero) as [A B]; split; [rewrite A; tauto|exact B]);
    try (destruct (filter_columns_iff cols cols0 ANull) as [A B]; split; [rewrite A; tauto|exact B]).
  - destruct (filter_omit_total cols cols0) as [v ->]. split; [split; [discriminate|contradiction]|discriminate].
  - destruct (filter_columns_iff cols cols0 (AConstant vals)) as [A B].
    destruct (filter_columns cols cols0 (AConstant vals)) as [v|e]; cbn.
    + destruct (Nat.eqb_spec (length vals) (length cols0)) as [E|E].
      * split; [split; [discriminate|]|discriminate]. intros [X|X]; [|congruence]. apply A in X. discriminate.
      * split; [split; auto|]. congruence.
    + assert (e = FxValueError) as -> by auto. split; [split; [|auto]|congruence]. intros _. left. apply A. auto.
  - match goal with |- context [filter_columns cols cols0 ?a] => destruct (filter_columns_iff cols cols0 a) as [A B] end.
    split; [rewrite A; tauto|exact B].
  - match goal with |- context [filter_columns cols cols0 ?a] => destruct (filter_columns_iff cols cols0 a) as [A B] end.
    split; [rewrite A; tauto|exact B].
  - set (al := match dget alphabet_map alphabet with Some s => Some s | None => custom end).
    assert ((al = None \/ al = Some EmptyString) <-> ~ In alphabet named_alphabets /\ (custom = None \/ custom = Some EmptyString)) as Hal.
    { subst al. destruct (dget alphabet_map alphabet) as [s|] eqn:E.
      - assert (In alphabet named_alphabets) as Hin.
        { assert (In alphabet (dkeys alphabet_map)) as K by (eapply dget_Some_key; eauto). exact K. }
        split; [|tauto]. apply dget_In in E. unfold alphabet_map in E. cbn in E.
        repeat destruct E as [E|E]; [..|contradiction]; injection E as _ <-; intros [X|X]; discriminate.
      - apply dget_None in E. change (dkeys alphabet_map) with named_alphabets in E. tauto. }
    rewrite <- Hal. clearbody al. destruct al as [[|c s]|].
    + split; [split; auto|congruence].
    + destruct (filter_columns_iff cols cols0 (ARandomString len (String c s))) as [A B]. split; [|exact B].
      rewrite A. split; [auto|]. intros [X|[X|X]]; [auto|discriminate|discriminate].
    + split; [split; auto|congruence].
  - match goal with |- context [filter_columns cols cols0 ?a] => destruct (filter_columns_iff cols cols0 a) as [A B] end.
    split; [rewrite A; tauto|exact B].
  - match goal with |- context [filter_columns cols cols0 ?a] => destruct (filter_columns_iff cols cols0 a) as [A B] end.
    split; [rewrite A; tauto|exact B].
  - destruct (load_plugin module clazz).
    + match goal with |- context [filter_columns cols cols0 ?a] => destruct (filter_columns_iff cols cols0 a) as [A B] end.
      split; [rewrite A; intuition discriminate|exact B].
    + split; [split; auto|congruence].
Qed.

Theorem chain_fails : forall fs cols e, cchain fs cols = Err e <->
  exists pre f post vs mid, fs = pre ++ f :: post /\ cchain pre cols = Ok (vs, mid) /\ cview f mid = Err e.
Proof.
  induction fs as [|f fs IH]; intros cols e; cbn.
  - split; [discriminate|]. intros (pre & f & post & vs & mid & H & _). destruct pre; discriminate.
  - destruct (cview f cols) as [v|e'] eqn:E; cbn.
    + split.
      * intros H. destruct (cchain fs (vw_out v)) as [[vs out]|e'] eqn:E'; cbn in H; [discriminate|]. injection H as ->.
        apply IH in E'. destruct E' as (pre & f' & post & vs & mid & -> & H1 & H2).
        exists (f :: pre), f', post, (v :: vs), mid. split; [auto|]. split; [|auto]. cbn. rewrite E. cbn. rewrite H1. auto.
      * intros (pre & f' & post & vs & mid & H & H1 & H2). destruct pre as [|f0 pre]; cbn in *.
        { injection H as -> ->. inversion H1; subst. congruence. }
        injection H as -> ->. rewrite E in H1. cbn in H1.
        apply bind_Ok in H1. destruct H1 as ([vs' out'] & H1 & X). inversion X; subst.
        assert (cchain (pre ++ f' :: post) (vw_out v) = Err e) as ->; [|auto].
        apply IH. exists pre, f', post, vs', mid. auto.
    + split.
      * intros [= ->]. exists [], f, fs, [], cols. auto.
      * intros (pre & f' & post & vs & mid & H & H1 & H2). destruct pre as [|f0 pre]; cbn in *.
        { injection H as -> ->. inversion H1; subst. congruence. }
        injection H as -> ->. rewrite E in H1. discriminate.
Qed.

Theorem multiplex_rejects cols col conds :
  (exists e, cview (FcMultiplex col conds) cols = Err e) <->
  ~ In col cols \/ exists k, In k conds /\
    ((exists e, csimple (mc_apply k) cols = Err e) \/ exists v, csimple (mc_apply k) cols = Ok v /\ sv_out v <> cols).
Proof.
  cbn [construct_view]. destruct (index_of col cols 0) as [i|] eqn:Ei.
  - assert (In col cols) as Hin.
    { apply index_of_Some in Ei. destruct Ei as (j & _ & Hj). eapply nth_error_In; eauto. }
    assert (forall P : Prop, (~ In col cols \/ P) <-> P) as -> by tauto.
    induction conds as [|k conds IH]; cbn.
    + split; [intros [e H]; discriminate|intros (k & [] & _)].
    + destruct (csimple (mc_apply k) cols) as [v|e] eqn:Ek; cbn.
      * destruct (mapM (fun c => csimple (mc_apply c) cols) conds) as [vs|e] eqn:Em; cbn in *.
        -- destruct (eqb (sv_out v) cols) eqn:Eo; cbn.
           ++ rewrite eqb_true in Eo.
              destruct (mapM (fun v0 => if eqb (sv_out v0) cols then Ok tt else Err FxValueError) vs) as [u|e]; cbn in *.
              ** split; [intros [e H]; discriminate|]. intros (k' & [<-|Hk'] & H).
                 { destruct H as [[e H]|(v' & H & H')]; [congruence|]. congruence. }
                 exfalso. destruct IH as [_ IH]. destruct IH as [e IH]; [exists k'; auto|discriminate].
              ** split; [|eauto]. intros _. destruct IH as [IH _]. destruct IH as (k' & Hk' & H); [eauto|]. exists k'. auto.
           ++ split; [|eauto]. intros _. exists k. split; [auto|]. right. exists v. rewrite eqb_false in Eo. auto.
        -- split; [|eauto]. intros _. destruct IH as [IH _]. destruct IH as (k' & Hk' & H); [eauto|]. exists k'. auto.
      * split; [|eauto]. intros _. exists k. eauto.
  - split; [|eauto]. intros _. left. eapply index_of_None; eauto.
Qed.

End C.

Section F.
Context {G : Type}.
Variable randint : Z -> Z -> G -> res filter_exn (Z * G).
Variable uniform : Q -> Q -> G -> Q * G.
Variable rand_index : nat -> G -> nat * G.
Variable uuid4 : G -> string * G.
Variable fake : string -> bool -> G -> res filter_exn (value * G).
Variable load_plugin : string -> string -> bool.
Variable plugin : string -> string -> list value -> G -> res filter_exn (list value * G).
Variable py_is : value -> mvalue -> bool.
Variable py_in : value -> mvalue -> res filter_exn bool.
Variable py_eq : value -> mvalue -> bool.
Variable py_lt py_gt py_le py_ge : value -> mvalue -> res filter_exn bool.
Variable py_fnmatch : value -> mvalue -> res filter_exn bool.

Notation fvalues := (filter_values randint uniform rand_index uuid4 fake plugin).
Notation asview := (apply_sview randint uniform rand_index uuid4 fake plugin).
Notation aview := (apply_view randint uniform rand_index uuid4 fake plugin py_is py_in py_eq py_lt py_gt py_le py_ge py_fnmatch).
Notation achain := (apply_chain randint uniform rand_index uuid4 fake plugin py_is py_in py_eq py_lt py_gt py_le py_ge py_fnmatch).
Notation csimple := (construct_simple load_plugin).
Notation cview := (construct_view load_plugin).
Notation cchain := (construct_chain load_plugin).
Notation pyholds := (holds py_is py_eq py_in py_lt py_gt py_le py_ge py_fnmatch).

(** ** Multiplex *)
Lemma cond_match_holds k v b :
  cond_match py_is py_in py_eq py_lt py_gt py_le py_ge py_fnmatch k v = Ok b <-> pyholds k v b.
Proof.
  unfold cond_match, holds. destruct (mc_op k); try tauto; try (split; congruence).
  destruct (py_in v (mc_value k)) as [b'|e]; cbn [bind]; [|split; discriminate].
  destruct b, b'; cbn; split; congruence.
Qed.

Theorem multiplex_first cols col conds v r g x : NoDup cols ->
  cview (FcMultiplex col conds) cols = Ok v -> value_of cols r col = Some x ->
  vw_out v = cols /\
  (forall pre k post, conds = pre ++ k :: post -> (forall k', In k' pre -> pyholds k' x false) -> pyholds k x true ->
     exists f, csimple (mc_apply k) cols = Ok f /\ aview v r g = asview f r g) /\
  ((forall k, In k conds -> pyholds k x false) -> aview v r g = Ok (r, g)).
Proof.
  intros N C Hx. apply cview_built in C.
  inversion C as [|col' conds' i vs Hi F E1 E2]; subst. split; [auto|].
  cbn [apply_view]. assert (list_get r i = Ok x) as ->.
  { unfold list_get. rewrite (value_of_nth r N Hi) in Hx. rewrite Hx. auto. }
  cbn [bind]. clear C Hi Hx. induction F as [|k f conds vs [Hf Ho] F IH]; cbn.
  - split; [|auto]. intros [|]; discriminate.
  - destruct IH as [IH1 IH2]. split.
    + intros [|k0 pre] k' post E Hp Hk; cbn in E; injection E as -> E.
      * subst. apply cond_match_holds in Hk. rewrite Hk. cbn. eauto.
      * assert (pyholds k0 x false) as H0 by (apply Hp; left; auto).
        apply cond_match_holds in H0. rewrite H0. cbn. apply (IH1 pre k' post); auto.
        intros k1 Hk1. apply Hp. right. auto.
    + intros Hp. assert (pyholds k x false) as H0 by (apply Hp; left; auto).
      apply cond_match_holds in H0. rewrite H0. cbn. apply IH2. intros k1 Hk1. apply Hp. auto.
Qed.

(** ** Values of the columns of a column filter *)
Lemma columns_view cols cs a v r g : NoDup cols -> filter_columns cols cs a = Ok v -> length r = length cols ->
  exists vs, Forall2 (fun c x => value_of cols r c = Some x) cs vs /\ NoDup cs /\ incl cs cols /\ sv_out v = cols /\
  match fvalues a vs g with
  | Err e => asview v r g = Err e
  | Ok (fs, g') => exists r', asview v r g = Ok (r', g') /\ length r' = length cols /\
      forall c, value_of cols r' c = match value_of cs fs c with Some y => Some y | None => value_of cols r c end
  end.
Proof.
  intros N C L. unfold filter_columns in C. apply bind_Ok in C. destruct C as (idx & C & X). inversion X; subst v.
  apply validate_Ok in C. destruct C as (_ & Nc & Hi & F).
  destruct (mapM_get_total L F) as (vs & Em & Lv). exists vs.
  assert (Forall2 (fun c x => value_of cols r c = Some x) cs vs) as F2.
  { clear Lv. clear X Nc Hi. revert vs Em. induction F as [|c i cs idx Hc F IH]; intros vs Em; cbn in Em.
    - inversion Em. constructor.
    - apply bind_Ok in Em. destruct Em as (x & Hx & Em). apply bind_Ok in Em. destruct Em as (vs' & Em & Y). inversion Y; subst.
      constructor; [|auto]. apply index_map_Some in Hc. rewrite (value_of_nth r N Hc). unfold list_get in Hx.
      destruct (nth_error r i); congruence. }
  split; [auto|]. split; [auto|]. split; [auto|]. split; [auto|].
  cbn [apply_sview]. rewrite Em. cbn [bind].
  destruct (fvalues a vs g) as [[fs g']|e]; cbn [bind]; [|auto].
  eexists. split; [reflexivity|]. split; [rewrite fold_set_length; auto|].
  intros c. rewrite (@fold_set_value cols N cs idx fs r L Nc F c). reflexivity.
Qed.

(** ** Zero *)
Lemma zero_value_spec x : zero_value x = match zero_of (type_of x) with Some y => Ok y | None => Err FxValueError end.
Proof. destruct x; reflexivity. Qed.

Theorem zero_filter cols cs v r g : NoDup cols -> csimple (SfZero cs) cols = Ok v -> length r = length cols ->
  ((exists c x, In c cs /\ value_of cols r c = Some x /\ type_of x = TyOther) /\ asview v r g = Err FxValueError) \/
  exists r', asview v r g = Ok (r', g) /\
    forall c x, In c cs -> value_of cols r c = Some x -> exists y,
      zero_of (type_of x) = Some y /\ value_of cols r' c = Some y /\ type_of y = type_of x.
Proof.
  intros N C L. cbn [construct_simple] in C.
  destruct (@columns_view cols cs AZero v r g N C L) as (vs & F & Nc & _ & _ & H).
  cbn [filter_values] in H.
  assert ((exists c x, In c cs /\ value_of cols r c = Some x /\ type_of x = TyOther) /\ mapM zero_value vs = Err FxValueError \/
    exists fs, mapM zero_value vs = Ok fs /\ Forall2 (fun x y => zero_of (type_of x) = Some y) vs fs) as K.
  { clear H Nc C. induction F as [|c x cs' vs Hc F IH]; cbn.
    - right. exists []. split; [auto|constructor].
    - rewrite zero_value_spec. destruct (zero_of (type_of x)) as [y|] eqn:Ez; cbn.
      + destruct IH as [[(c' & x' & H1 & H2) Hm]|(fs & Hm & Hf)]; rewrite ?Hm; cbn.
        * left. split; [|auto]. exists c', x'. cbn. split; [right; auto|auto].
        * right. exists (y :: fs). split; [auto|constructor; auto].
      + left. split; [|auto]. exists c, x. split; [left; auto|]. split; [auto|]. destruct (type_of x); try discriminate. auto. }
  destruct K as [[K1 K2]|(fs & K1 & K2)]; rewrite ?K2, ?K1 in H; cbn in H; [auto|].
  right. destruct H as (r' & H & _ & Hv). exists r'. split; [auto|].
  intros c x Hc Hx. rewrite Hv. apply In_nth_error in Hc. destruct Hc as [k Hk].
  rewrite (value_of_nth fs Nc Hk).
  assert (nth_error vs k = Some x) as Hvk.
  { clear -F Hk Hx. revert k Hk. induction F as [|c' x' cs' vs' Hc F IH]; intros [|k] Hk; cbn in *; try discriminate; [congruence|auto]. }
  assert (exists y, nth_error fs k = Some y /\ zero_of (type_of x) = Some y) as (y & Hy & Hz).
  { clear -K2 Hvk. revert k Hvk. induction K2 as [|x' y' l l' Hc F IH]; intros [|k] Hk; cbn in *; try discriminate; [|auto].
    injection Hk as ->. eauto. }
  exists y. split; [auto|]. rewrite Hy. split; [auto|]. destruct x; cbn in Hz; inversion Hz; auto.
Qed.

(** ** Plugins *)
Theorem plugin_replaces cols cs m k v r g : NoDup cols -> csimple (SfPlugin cs m k) cols = Ok v -> length r = length cols ->
  exists vs, Forall2 (fun c x => value_of cols r c = Some x) cs vs /\
  match plugin m k vs g with
  | Err e => asview v r g = Err e
  | Ok (fs, g') => exists r', asview v r g = Ok (r', g') /\
      forall i c, nth_error cs i = Some c -> i < length fs -> value_of cols r' c = nth_error fs i
  end.
Proof.
  intros N C L. cbn [construct_simple] in C. destruct (load_plugin m k); [|discriminate].
  destruct (@columns_view cols cs (APlugin m k) v r g N C L) as (vs & F & Nc & _ & _ & H).
  cbn [filter_values] in H. exists vs. split; [auto|]. destruct (plugin m k vs g) as [[fs g']|e]; [|auto].
  destruct H as (r' & H & _ & Hv). exists r'. split; [auto|]. intros i c Hi Hlt.
  rewrite Hv, (value_of_nth fs Nc Hi). destruct (nth_error fs i) eqn:E; [auto|].
  apply nth_error_None in E. lia.
Qed.

(** ** Random strings *)
Definition fair : Prop := forall n g, 0 < n -> fst (rand_index n g) < n.

Lemma get_In s : forall i c, String.get i s = Some c -> In c (chars s).
Proof. induction s as [|a s IH]; intros [|i] c; cbn; intros H; try discriminate; [injection H as ->; auto|right; eauto]. Qed.
Lemma get_lt s : forall i, i < String.length s -> exists c, String.get i s = Some c.
Proof. induction s as [|a s IH]; intros [|i] H; cbn in *; try lia; [eauto|]. apply IH. lia. Qed.

Lemma random_chars_spec al : fair -> al <> EmptyString -> forall k g,
  String.length (fst (random_chars rand_index al k g)) = k /\
  forall c, In c (chars (fst (random_chars rand_index al k g))) -> In c (chars al).
Proof.
  intros Hf Hal. induction k as [|k IH]; intros g; cbn; [split; [auto|intros c []]|].
  destruct (rand_index (String.length al) g) as [i g1] eqn:E.
  destruct (random_chars rand_index al k g1) as [s g2] eqn:E2.
  assert (i < String.length al) as Hi.
  { change i with (fst (i, g1)). rewrite <- E. apply Hf. destruct al; [congruence|cbn; lia]. }
  destruct (get_lt Hi) as [c Hc]. rewrite Hc. cbn. specialize (IH g1). rewrite E2 in IH. cbn in IH. destruct IH as [IH1 IH2].
  split; [auto|]. intros c' [<-|H]; [eapply get_In; eauto|auto].
Qed.

Lemma draws_Forall (A : Type) (f : G -> res filter_exn (A * G)) (P : A -> Prop) :
  (forall g a g', f g = Ok (a, g') -> P a) -> forall n g l g', draws f n g = Ok (l, g') -> Forall P l.
Proof.
  intros Hf. induction n as [|n IH]; intros g l g' E; cbn in E; [inversion E; constructor|].
  apply bind_Ok in E. destruct E as ([a g1] & E1 & E). apply bind_Ok in E. destruct E as ([l' g2] & E2 & E).
  inversion E; subst. constructor; eauto.
Qed.

Definition between_b a b c := Nat.leb a (nat_of_ascii c) && Nat.leb (nat_of_ascii c) b.
Lemma between_b_true a b c : between_b a b c = true <-> code_between a b c.
Proof. unfold between_b, code_between. rewrite andb_true_iff, !Nat.leb_le. tauto. Qed.

Lemma alphabet_spec al custom s : (match dget alphabet_map al with Some s => Some s | None => custom end) = Some s ->
  forall c, In c (chars s) -> in_alphabet al custom c.
Proof.
  destruct (dget alphabet_map al) as [s'|] eqn:E.
  - intros [= ->] c Hc. apply dget_In in E. unfold alphabet_map in E. cbn [In] in E.
    assert (forall a b, (forallb (between_b a b) (chars s) = true -> code_between a b c)) as B1.
    { intros a b H. rewrite forallb_forall in H. apply between_b_true. auto. }
    assert (forall a b a' b', (forallb (fun c => between_b a b c || between_b a' b' c) (chars s) = true -> code_between a b c \/ code_between a' b' c)) as B2.
    { intros a b a' b' H. rewrite forallb_forall in H. specialize (H c Hc). apply orb_true_iff in H. rewrite !between_b_true in H. auto. }
    assert (forall a b a' b' a2 b2, (forallb (fun c => between_b a b c || (between_b a' b' c || between_b a2 b2 c)) (chars s) = true -> code_between a b c \/ code_between a' b' c \/ code_between a2 b2 c)) as B3.
    { intros a b a' b' a2 b2 H. rewrite forallb_forall in H. specialize (H c Hc). rewrite !orb_true_iff in H. rewrite !between_b_true in H. auto. }
    destruct E as [E|[E|[E|[E|[E|[E|[E|[E|[]]]]]]]]]; injection E as <- <-.
    + change (digit c \/ upper_case c \/ lower_case c). apply B3. vm_compute. reflexivity.
    + change (digit c \/ code_between 97 102 c). apply B2. vm_compute. reflexivity.
    + change (digit c \/ code_between 97 102 c). apply B2. vm_compute. reflexivity.
    + change (digit c \/ code_between 65 70 c). apply B2. vm_compute. reflexivity.
    + change (digit c). apply B1. vm_compute. reflexivity.
    + change (upper_case c \/ lower_case c). apply B2. vm_compute. reflexivity.
    + change (lower_case c). apply B1. vm_compute. reflexivity.
    + change (upper_case c). apply B1. vm_compute. reflexivity.
  - intros -> c Hc. apply dget_None in E. change (dkeys alphabet_map) with named_alphabets in E.
    unfold in_alphabet.
    repeat match goal with |- context [eqb al ?n] =>
      let X := fresh in destruct (eqb al n) eqn:X;
      [rewrite eqb_true in X; exfalso; apply E; subst al; unfold named_alphabets; cbn [In]; tauto|] end.
    eauto.
Qed.

Theorem random_string_filter cols cs len al custom v r g r' g' : fair -> NoDup cols ->
  csimple (SfRandomString cs len al custom) cols = Ok v -> length r = length cols -> asview v r g = Ok (r', g') ->
  forall c, In c cs -> exists s, value_of cols r' c = Some (VStr s) /\
    String.length s = Z.to_nat len /\ forall ch, In ch (chars s) -> in_alphabet al custom ch.
Proof.
  intros Hf N C L E c Hc. cbn [construct_simple] in C.
  destruct (match dget alphabet_map al with Some s => Some s | None => custom end) as [[|ch s]|] eqn:Ea; try discriminate.
  destruct (@columns_view cols cs _ v r g N C L) as (vs & F & Nc & _ & _ & H).
  destruct (fvalues (ARandomString len (String ch s)) vs g) as [[fs g1]|e] eqn:Ef; [|congruence].
  destruct H as (r1 & H & _ & Hv). rewrite E in H. inversion H; subst r1 g1. clear H. rewrite Hv.
  cbn [filter_values] in Ef.
  pose proof (draws_length Ef) as Lf. apply Forall2_len in F.
  apply draws_Forall with (P := fun x => exists s', x = VStr s' /\ String.length s' = Z.to_nat len /\
     forall ch', In ch' (chars s') -> In ch' (chars (String ch s))) in Ef.
  2:{ intros g0 a g0' X. destruct (random_chars rand_index (String ch s) (Z.to_nat len) g0) as [s' g2] eqn:Er.
      inversion X; subst. exists s'. split; [auto|].
      destruct (@random_chars_spec (String ch s) Hf ltac:(discriminate) (Z.to_nat len) g0) as [A B].
      rewrite Er in A, B. auto. }
  destruct (value_of cs fs c) as [x|] eqn:Ex.
  - unfold value_of in Ex. apply dget_In, in_combine_r in Ex. rewrite Forall_forall in Ef.
    destruct (Ef x Ex) as (s' & -> & A & B). exists s'. split; [auto|]. split; [auto|].
    intros ch' Hch. eapply alphabet_spec; eauto.
  - apply value_of_None in Ex; [contradiction|]. congruence.
Qed.
End F.
