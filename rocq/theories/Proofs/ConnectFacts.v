(** Proofs about connection settings. *)
From Coq Require Import Lia.
From Verif Require Import Model.Base Model.Config Spec.ConfigSpec Proofs.BaseFacts.
Set Implicit Arguments. Unset Strict Implicit.
Open Scope string_scope.
Open Scope list_scope.

Lemma or_str_cases : forall x y, (exists v, set_to x v /\ or_str x y = Some v) \/ (unset x /\ or_str x y = y).
Proof.
  intros [[|c s]|] y; [right|left|right]; cbn.
  - split; auto. now right.
  - exists (String c s). split; auto. split; auto. discriminate.
  - split; auto. now left.
Qed.
Lemma set_unset : forall x v, set_to x v -> unset x -> False.
Proof. intros x v (-> & N) [H|H]; congruence. Qed.
Lemma or_str_resolved : forall x env d, resolved x env d (or_str x (match env with Some v => Some v | None => d end)).
Proof.
  intros x env d. destruct (or_str_cases x (match env with Some v => Some v | None => d end)) as [(v & S & ->)|(U & ->)].
  - repeat split.
    + intros v' S'. destruct S as (-> & _), S' as (S' & _). congruence.
    + intros U. destruct (set_unset S U).
    + intros U. destruct (set_unset S U).
  - repeat split.
    + intros v S. destruct (set_unset S U).
    + intros _ v ->. reflexivity.
    + intros _ ->. reflexivity.
Qed.
Lemma or_str_resolved_none : forall x env, resolved x env None (or_str x env).
Proof. intros x env. pose proof (or_str_resolved x env None) as H. now destruct env. Qed.
Lemma resolved_det : forall x env d r1 r2, resolved x env d r1 -> resolved x env d r2 -> r1 = r2.
Proof.
  intros x env d r1 r2 (A1 & B1 & C1) (A2 & B2 & C2).
  destruct x as [[|c s]|].
  - assert (U : unset (Some "")) by now right. destruct env as [v|]; [rewrite (B1 U v eq_refl), (B2 U v eq_refl)|rewrite (C1 U), (C2 U)]; auto.
  - assert (S : set_to (Some (String c s)) (String c s)) by (split; [auto|discriminate]). rewrite (A1 _ S), (A2 _ S). reflexivity.
  - assert (U : unset None) by now left. destruct env as [v|]; [rewrite (B1 U v eq_refl), (B2 U v eq_refl)|rewrite (C1 U), (C2 U)]; auto.
Qed.

Section Env.
Variable getenv : string -> option string.
Variable to_int : string -> option Z.
Hypothesis int_zero : to_int "0" = Some 0%Z.


Lemma port_resolved : forall port env (default : Z) z,
  or_int port (match to_int (match env with Some v => v | None => "0" end) with Some z => Ok z | None => Err UxValueError end) = Ok z ->
  resolved_port to_int port env default (match Some z with None | Some 0%Z => default | Some p => p end).
Proof.
  intros port env default z H.
  assert (Z0 : forall a b : Z, (match a with 0%Z => b | _ => a end) = if Z.eqb a 0 then b else a) by (intros [] ?; reflexivity).
  cbv beta iota. rewrite Z0.
  assert (P : (exists p, port = Some p /\ p <> 0%Z /\ z = p) \/ (unset_port port /\ to_int (match env with Some v => v | None => "0" end) = Some z)).
  { destruct port as [[|p|p]|]; cbn in H.
    - right. split; [now right|]. match type of H with match ?x with _ => _ end = _ => destruct x; inversion H; reflexivity end.
    - left. inv H. eexists; split; [reflexivity|]. split; [discriminate|reflexivity].
    - left. inv H. eexists; split; [reflexivity|]. split; [discriminate|reflexivity].
    - right. split; [now left|]. match type of H with match ?x with _ => _ end = _ => destruct x; inversion H; reflexivity end. }
  destruct P as [(p & -> & N & ->)|(U & E)].
  - destruct (Z.eqb_spec p 0); [congruence|]. repeat split.
    + intros q Hq _. congruence.
    + intros [U|U]; congruence.
    + intros [U|U]; congruence.
  - repeat split.
    + intros q -> Hq. destruct U as [U|U]; congruence.
    + intros _ s q -> Es Hq. rewrite Es in E. inv E. destruct (Z.eqb_spec z 0); congruence.
    + intros _ [->|(s & -> & Es)]; [rewrite int_zero in E|rewrite Es in E]; inv E; reflexivity.
Qed.


Theorem url_spec : forall dialect e host port database username password,
  let env n := getenv (e ++ n)%string in
  let result := database_url getenv to_int dialect (Some e) host port database username password in
  exists d, resolved dialect (env "DIALECT") (Some "mysql") (Some d) /\
    ((exists u, result = Ok u) <-> In d ["mysql"; "postgres"; "sqlite"] /\ (unset_port port -> forall s, env "PORT" = Some s -> exists z, to_int s = Some z)) /\
    forall u, result = Ok u ->
      (d = "sqlite" -> u_driver u = "sqlite" /\ resolved database (env "DATABASE") None (u_database u)) /\
      (d <> "sqlite" -> u_driver u = driver_of d /\ resolved host (env "HOST") (Some "localhost") (u_host u) /\
         (exists z, u_port u = Some z /\ resolved_port to_int port (env "PORT") (default_port d) z) /\
         resolved username (env "USERNAME") None (u_username u) /\ resolved password (env "PASSWORD") None (u_password u)) /\
      (d = "postgres" -> exists x, resolved database (env "DATABASE") None x /\ named_only x (u_database u)) /\
      (d = "mysql" -> u_database u = None).
Proof.
  intros dialect e host port database username password env result.
  exists (match or_str dialect (env "DIALECT") with None => "mysql" | Some d => d end).
  set (d := match or_str dialect (env "DIALECT") with None => "mysql" | Some d => d end).
  split.
  { pose proof (or_str_resolved_none dialect (env "DIALECT")) as (A & B & C). subst d. repeat split.
    - intros v S. rewrite (A v S). reflexivity.
    - intros U v V. rewrite (B U v V). reflexivity.
    - intros U V. rewrite (C U V). reflexivity. }
  set (pr := or_int port (match to_int (match env "PORT" with Some v => v | None => "0" end) with Some z => Ok z | None => Err UxValueError end)).
  assert (PR : (exists z, pr = Ok z) <-> (unset_port port -> forall s, env "PORT" = Some s -> exists z, to_int s = Some z)).
  { subst pr. destruct port as [[|p|p]|]; cbn.
    1, 4: split.
    1, 3: intros (z & Hz) _ s Es; rewrite Es in Hz; destruct (to_int s); eauto; discriminate.
    1, 2: intros H; destruct (env "PORT") as [s|] eqn:Es; [destruct (H ltac:(first [now left|now right]) s eq_refl) as (z & ->); eauto|rewrite int_zero; eauto].
    - split; eauto. intros _ [U|U]; discriminate.
    - split; eauto. intros _ [U|U]; discriminate. }
  assert (R : result = let* port := pr in
    if String.eqb d "mysql" then Ok (mkUrl "mysql+pymysql" (or_str host (Some (match env "HOST" with Some v => v | None => "localhost" end)))
       (match Some port with None | Some 0%Z => Some 3306%Z | Some p => Some p end) None
       (or_str username (env "USERNAME")) (or_str password (env "PASSWORD")) [("charset", "utf8mb4")])
    else if String.eqb d "postgres" then
      Ok (mkUrl "postgresql+psycopg2" (or_str host (Some (match env "HOST" with Some v => v | None => "localhost" end)))
        (match Some port with None | Some 0%Z => Some 5432%Z | Some p => Some p end)
        (if truthy (or_str database (env "DATABASE")) then or_str database (env "DATABASE") else None)
        (or_str username (env "USERNAME")) (or_str password (env "PASSWORD")) [])
    else if String.eqb d "sqlite" then Ok (mkUrl "sqlite" None None (or_str database (env "DATABASE")) None None [])
    else Err UxValueError).
  { subst result pr d. unfold database_url, var, getenv_or. fold env. destruct (or_int _ _); reflexivity. }
  clearbody result. subst result. clearbody d.
  assert (Z0 : forall (a b : Z), (match Some a with None | Some 0%Z => Some b | Some p => Some p end) = Some (match Some a with None | Some 0%Z => b | Some p => p end)) by (intros [] ?; reflexivity).
  assert (H0 : forall x, Some (match x with Some v => v | None => "localhost" end) = match x with Some v => Some v | None => Some "localhost" end) by now intros [].
  split.
  - rewrite <- PR. destruct pr as [z|ex]; cbn.
    + destruct (String.eqb_spec d "mysql") as [->|]; [split; eauto|].
      destruct (String.eqb_spec d "postgres") as [->|]; [split; eauto; intros _; split; eauto|].
      destruct (String.eqb_spec d "sqlite") as [->|]; [split; eauto; intros _; split; eauto; tauto|].
      split; [intros (u & ?); discriminate|]. intros ([H|[H|[H|[]]]] & _); congruence.
    + split; [intros (u & ?); discriminate|]. intros (_ & z & ?); discriminate.
  - intros u Hu. destruct pr as [z|ex] eqn:EP; cbn [bind] in Hu; [|discriminate]. subst pr.
    destruct (String.eqb_spec d "mysql") as [->|N1].
    + inv Hu. cbn [u_driver u_host u_port u_database u_username u_password]. split; [discriminate|]. split; [|split; [discriminate|reflexivity]].
      intros _. split; [reflexivity|]. split; [rewrite H0; apply or_str_resolved|]. split; [|split; apply or_str_resolved_none].
      rewrite Z0. eexists. split; [reflexivity|]. now apply port_resolved.
    + destruct (String.eqb_spec d "postgres") as [->|N2].
      * inv Hu. cbn [u_driver u_host u_port u_database u_username u_password]. split; [discriminate|]. split; [|split; [|discriminate]].
        -- intros _. split; [reflexivity|]. split; [rewrite H0; apply or_str_resolved|]. split; [|split; apply or_str_resolved_none].
           rewrite Z0. eexists. split; [reflexivity|]. now apply port_resolved.
        -- intros _. exists (or_str database (env "DATABASE")). split; [apply or_str_resolved_none|].
           destruct (or_str database (env "DATABASE")) as [[|c s]|]; cbn; split.
           all: try (intros v (E & ?); congruence). all: try reflexivity. intros [U|U]; congruence.
      * destruct (String.eqb_spec d "sqlite") as [->|N3]; [|discriminate]. inv Hu. cbn. split; [|split; [congruence|split; discriminate]].
        intros _. split; auto. apply or_str_resolved_none.
Qed.

(** ** TLS *)
Lemma given_dget : forall l k, NoDup (map fst l) -> forall v, dget (given l) k = Some v <-> exists x, In (k, x) l /\ set_to x v.
Proof.
  induction l as [|(k', x) l IH]; intros k N v; cbn [given flat_map fst snd].
  - split; [discriminate|]. intros (? & [] & _).
  - inversion N as [|? ? N1 N2]; subst. specialize (IH k N2 v).
    assert (U : k = k' -> dget (given l) k = None).
    { intros ->. apply dget_None. intros H. apply N1. unfold dkeys in H. apply in_map_iff in H. destruct H as ((a & b) & E & H). cbn in E. subst a.
      unfold given in H. apply in_flat_map in H. destruct H as ((a, y) & Hy & H). apply in_map_iff. exists (a, y). split; auto.
      cbn in H. destruct y as [[|c s]|]; cbn in H; try tauto. destruct H as [H|[]]. now inv H. }
    fold (given l) in *. unfold given in *. destruct x as [[|c s]|].
    + cbn [app]. rewrite IH. split; intros (x & Hx & S); exists x; split; auto; [now right|]. destruct Hx as [E|Hx]; auto. inv E. destruct S as (S & ?). congruence.
    + cbn [app dget]. destruct (eq_dec k k') as [->|D].
      * split.
        -- intros E. inv E. eexists. split; [now left|]. split; auto. discriminate.
        -- intros (x & [E|Hx] & S); [inv E; now destruct S|]. exfalso. apply N1. apply in_map_iff. exists (k', x). auto.
      * rewrite IH. split; intros (x & Hx & S); exists x; split; auto; [now right|]. destruct Hx as [E|Hx]; auto. inv E. congruence.
    + cbn [app]. rewrite IH. split; intros (x & Hx & S); exists x; split; auto; [now right|]. destruct Hx as [E|Hx]; auto. inv E. destruct S as (S & ?). congruence.
Qed.
Lemma or_str_file : forall x y v, set_to (or_str x y) v <-> file_setting x y v.
Proof.
  intros x y v. unfold file_setting. destruct (or_str_cases x y) as [(w & S & E)|(U & E)]; rewrite E.
  - split.
    + intros (H & _). inv H. now left.
    + intros [S'|(U & _)]; [|destruct (set_unset S U)]. destruct S as (-> & N), S' as (S' & N'). split; auto.
  - split.
    + intros S. now right.
    + intros [S|(_ & S)]; auto. destruct (set_unset S U).
Qed.


Theorem tls_spec : forall ssl dialect e,
  let env n := getenv (e ++ n)%string in
  (~ tls_required getenv e ssl -> get_connect_args getenv ssl dialect (Some e) = Ok NoArgs) /\
  (tls_required getenv e ssl ->
    (dialect = "postgres" -> exists a verify, get_connect_args getenv ssl dialect (Some e) = Ok (PgArgs a) /\ verifies getenv e ssl verify /\
       (forall v, dget a "sslmode" = Some v <-> v = sslmode_of verify) /\
       (forall v, dget a "sslcert" = Some v <-> file_setting (ssl_cert ssl) (env "SSL_CLIENT_CERT") v) /\
       (forall v, dget a "sslkey" = Some v <-> file_setting (ssl_key ssl) (env "SSL_CLIENT_KEY") v) /\
       (forall v, dget a "sslrootcert" = Some v <-> file_setting (ssl_rootcert ssl) (env "SSL_SERVER_ROOTCERT") v) /\
       (forall k v, dget a k = Some v -> In k ["sslmode"; "sslcert"; "sslkey"; "sslrootcert"])) /\
    (dialect = "mysql" -> exists a verify, get_connect_args getenv ssl dialect (Some e) = Ok (MyArgs a) /\ verifies getenv e ssl verify /\
       (forall b, dget a (fst (verify_flag verify)) = Some b <-> b = ABool (snd (verify_flag verify))) /\
       (forall v, dget a "cert" = Some v <-> exists f, v = AStr f /\ file_setting (ssl_cert ssl) (env "SSL_CLIENT_CERT") f) /\
       (forall v, dget a "key" = Some v <-> exists f, v = AStr f /\ file_setting (ssl_key ssl) (env "SSL_CLIENT_KEY") f) /\
       (forall v, dget a "ca" = Some v <-> exists f, v = AStr f /\ file_setting (ssl_rootcert ssl) (env "SSL_SERVER_ROOTCERT") f) /\
       (forall k v, dget a k = Some v -> In k [fst (verify_flag verify); "cert"; "key"; "ca"])) /\
    (dialect <> "postgres" -> dialect <> "mysql" -> get_connect_args getenv ssl dialect (Some e) = Err UxValueError)).
Proof.
  intros ssl dialect e env. assert (EV : forall n, getenv (e ++ n)%string = env n) by reflexivity. clearbody env.
  unfold get_connect_args, var, getenv_or. rewrite !EV.
  set (require := match ssl_require ssl with Some r => match r with Some b => b | None => false end | None => negb (String.eqb (match env "SSL_REQUIRE" with Some v => v | None => "" end) "") end).
  assert (RQ : require = true <-> tls_required getenv e ssl).
  { subst require. unfold tls_required. rewrite !EV. destruct (ssl_require ssl) as [[b|]|].
    - split; [intros ->; now left|]. intros [H|(H & _)]; congruence.
    - split; [discriminate|]. intros [H|(H & _)]; congruence.
    - rewrite negb_true_iff. destruct (env "SSL_REQUIRE") as [v|].
      + split; [intros H; right; split; auto; exists v; split; auto; intros ->; discriminate|]. intros [H|(_ & v' & E & N)]; [congruence|]. inv E. now apply String.eqb_neq.
      + split; [discriminate|]. intros [H|(_ & v' & E & _)]; congruence. }
  clearbody require. split; [intros H; destruct require; [exfalso; apply H, RQ; reflexivity|reflexivity]|].
  intros H. apply RQ in H. subst require. cbn [negb].
  set (verify := match ssl_verify ssl with Some v => v | None => match env "SSL_SERVER_VERIFY" with Some v => v | None => "none" end end).
  assert (VF : verifies getenv e ssl verify).
  { subst verify. unfold verifies. rewrite !EV. destruct (ssl_verify ssl); auto. right. split; auto. destruct (env "SSL_SERVER_VERIFY"); auto. }
  clearbody verify. split; [|split].
  - intros ->. rewrite String.eqb_refl.
    match goal with |- context [PgArgs ?a] => set (args := a) end.
    assert (G := given_dget (l := [("sslcert", or_str (ssl_cert ssl) (env "SSL_CLIENT_CERT")); ("sslkey", or_str (ssl_key ssl) (env "SSL_CLIENT_KEY"));
      ("sslmode", Some (sslmode_of verify)); ("sslrootcert", or_str (ssl_rootcert ssl) (env "SSL_SERVER_ROOTCERT"))])).
    assert (EA : args = given [("sslcert", or_str (ssl_cert ssl) (env "SSL_CLIENT_CERT")); ("sslkey", or_str (ssl_key ssl) (env "SSL_CLIENT_KEY"));
      ("sslmode", Some (sslmode_of verify)); ("sslrootcert", or_str (ssl_rootcert ssl) (env "SSL_SERVER_ROOTCERT"))]) by reflexivity.
    exists args, verify. split; [reflexivity|]. split; auto. clearbody args. subst args.
    assert (N : NoDup (map fst [("sslcert", or_str (ssl_cert ssl) (env "SSL_CLIENT_CERT")); ("sslkey", or_str (ssl_key ssl) (env "SSL_CLIENT_KEY"));
      ("sslmode", Some (sslmode_of verify)); ("sslrootcert", or_str (ssl_rootcert ssl) (env "SSL_SERVER_ROOTCERT"))])).
    { cbn. repeat constructor; cbn; intuition discriminate. }
    split; [|split; [|split; [|split]]].
    + intros v. rewrite (G _ N). split.
      * intros (x & Hx & S). cbn in Hx. destruct Hx as [E|[E|[E|[E|[]]]]]; inv E. destruct S as (S & _). now inv S.
      * intros ->. eexists. split; [right; right; left; reflexivity|]. split; auto. unfold sslmode_of. destruct (String.eqb verify "identity"); [discriminate|]. destruct (String.eqb verify "cert"); discriminate.
    + intros v. rewrite (G _ N), <- or_str_file. split.
      * intros (x & Hx & S). cbn in Hx. destruct Hx as [E|[E|[E|[E|[]]]]]; inv E. exact S.
      * intros S. eexists. split; [left; reflexivity|exact S].
    + intros v. rewrite (G _ N), <- or_str_file. split.
      * intros (x & Hx & S). cbn in Hx. destruct Hx as [E|[E|[E|[E|[]]]]]; inv E. exact S.
      * intros S. eexists. split; [right; left; reflexivity|exact S].
    + intros v. rewrite (G _ N), <- or_str_file. split.
      * intros (x & Hx & S). cbn in Hx. destruct Hx as [E|[E|[E|[E|[]]]]]; inv E. exact S.
      * intros S. eexists. split; [right; right; right; left; reflexivity|exact S].
    + intros k v Hk. apply (G _ N) in Hk. destruct Hk as (x & Hx & _). cbn in Hx. destruct Hx as [E|[E|[E|[E|[]]]]]; inv E; cbn; auto.
  - intros ->. change (String.eqb "mysql" "postgres") with false. rewrite String.eqb_refl. cbv iota.
    set (l := [("ca", or_str (ssl_rootcert ssl) (env "SSL_SERVER_ROOTCERT")); ("key", or_str (ssl_key ssl) (env "SSL_CLIENT_KEY")); ("cert", or_str (ssl_cert ssl) (env "SSL_CLIENT_CERT"))]).
    assert (N : NoDup (map fst l)) by (cbn; repeat constructor; cbn; intuition discriminate).
    assert (G := fun k => given_dget (l := l) k N).
    set (a := map (fun kv => (fst kv, AStr (snd kv))) (given l) ++ [(fst (verify_flag verify), ABool (snd (verify_flag verify)))]).
    exists a, verify. split; [unfold a, verify_flag; destruct (String.eqb verify "identity"); [reflexivity|]; destruct (String.eqb verify "cert"); reflexivity|].
    split; auto.
    assert (D : forall k v, dget a k = Some v <-> (exists f, v = AStr f /\ dget (given l) k = Some f) \/ (k = fst (verify_flag verify) /\ v = ABool (snd (verify_flag verify)) /\ dget (given l) k = None)).
    { intros k v. unfold a. generalize (given l). induction d as [|(k', f) d IH]; cbn [map app dget fst snd].
      - destruct (eq_dec k (fst (verify_flag verify))); split.
        + intros E. inv E. right. auto.
        + intros [(f & _ & ?)|(_ & -> & _)]; [discriminate|reflexivity].
        + discriminate.
        + intros [(f & _ & ?)|(? & _)]; [discriminate|congruence].
      - destruct (eq_dec k k') as [->|Dk]; [|exact IH]. split.
        + intros E. inv E. left. eauto.
        + intros [(f' & -> & E)|(_ & _ & E)]; [now inv E|discriminate]. }
    assert (K : forall k f, dget (given l) k = Some f -> In k ["ca"; "key"; "cert"]).
    { intros k f Hk. apply G in Hk. destruct Hk as (x & Hx & _). cbn in Hx. destruct Hx as [E|[E|[E|[]]]]; inv E; cbn; auto. }
    assert (FK : ~ In (fst (verify_flag verify)) ["ca"; "key"; "cert"]).
    { unfold verify_flag. destruct (String.eqb verify "identity"); [cbn; intuition discriminate|]. destruct (String.eqb verify "cert"); cbn; intuition discriminate. }
    assert (F : forall k x, In (k, x) l -> forall v, dget a k = Some v <-> exists f, v = AStr f /\ set_to x f).
    { intros k x Hx v. rewrite D. split.
      - intros [(f & -> & E)|(-> & _)].
        + exists f. split; auto. apply G in E. destruct E as (y & Hy & S). cbn in Hx, Hy.
          destruct Hx as [E|[E|[E|[]]]]; inv E; destruct Hy as [E|[E|[E|[]]]]; inv E; exact S.
        + exfalso. apply FK. cbn in Hx. destruct Hx as [E|[E|[E|[]]]]; inv E; cbn; auto.
      - intros (f & -> & S). left. exists f. split; auto. apply G. eauto. }
    split; [|split; [|split; [|split]]].
    + intros b. rewrite D. split.
      * intros [(f & _ & E)|(_ & -> & _)]; auto. exfalso. apply FK. eapply K; eauto.
      * intros ->. right. split; auto. split; auto. destruct (dget (given l) (fst (verify_flag verify))) eqn:E; auto. exfalso. apply FK. eapply K; eauto.
    + intros v. rewrite (F "cert" _ (or_intror (or_intror (or_introl eq_refl)))). split; intros (f & -> & S); exists f; split; auto; now apply or_str_file.
    + intros v. rewrite (F "key" _ (or_intror (or_introl eq_refl))). split; intros (f & -> & S); exists f; split; auto; now apply or_str_file.
    + intros v. rewrite (F "ca" _ (or_introl eq_refl)). split; intros (f & -> & S); exists f; split; auto; now apply or_str_file.
    + intros k v Hk. apply D in Hk. destruct Hk as [(f & _ & Hk)|(-> & _)]; [|now left]. apply K in Hk. cbn in *. tauto.
  - intros N1 N2. destruct (String.eqb_spec dialect "postgres"); [congruence|]. destruct (String.eqb_spec dialect "mysql"); [congruence|]. reflexivity.
Qed.

(** ** The engine *)
Theorem args_fit_partial : forall c e g, database_engine getenv to_int c (Some e) = Ok g ->
  ((exists d, set_to (dc_dialect c) d) \/ getenv (e ++ "DIALECT")%string = None \/ getenv (e ++ "DIALECT")%string = Some "mysql") ->
  args_fit (u_driver (eg_url g)) (eg_args g).
Proof.
  intros c e g H D. unfold database_engine in H.
  destruct (database_url getenv to_int (dc_dialect c) (Some e) (dc_host c) (dc_port c) (dc_database c) (dc_username c) (dc_password c)) as [u|] eqn:EU; [|discriminate]. cbn [bind] in H.
  set (d := match or_str (dc_dialect c) None with Some d => d | None => "mysql" end) in H.
  destruct (get_connect_args getenv (dc_ssl c) d (Some e)) as [a|] eqn:EA; [|discriminate]. cbn [bind] in H. inv H. cbn [eg_url eg_args].
  destruct (url_spec (dc_dialect c) e (dc_host c) (dc_port c) (dc_database c) (dc_username c) (dc_password c)) as (d' & RD & _ & HU).
  specialize (HU u EU). destruct HU as (U1 & U2 & _).
  assert (d' = d).
  { destruct RD as (R1 & R2 & R3). destruct (or_str_cases (dc_dialect c) None) as [(v & S & E)|(U & E)].
    - specialize (R1 v S). inv R1. subst d. now rewrite E.
    - subst d. rewrite E. destruct D as [(v & S)|[D|D]]; [destruct (set_unset S U)|specialize (R3 U D); now inv R3|specialize (R2 U _ D); now inv R2]. }
  subst d'. clearbody d.
  assert (AR : args_fit (if String.eqb d "postgres" then "postgresql+psycopg2" else "mysql+pymysql") a /\ (d <> "postgres" -> d <> "mysql" -> a = NoArgs)).
  { unfold get_connect_args in EA. destruct (negb _) in EA; [inv EA; split; cbn; auto|].
    destruct (String.eqb_spec d "postgres"); [inv EA; split; [reflexivity|congruence]|].
    destruct (String.eqb_spec d "mysql"); [inv EA; split; [reflexivity|congruence]|discriminate]. }
  destruct AR as (A1 & A2). destruct (string_dec d "sqlite") as [->|N].
  - rewrite A2 by discriminate. exact I.
  - destruct (U2 N) as (-> & _). unfold driver_of. destruct (String.eqb_spec d "mysql") as [->|N1]; [exact A1|].
    destruct (String.eqb_spec d "postgres") as [->|N2]; [exact A1|]. rewrite A2 by auto. exact I.
Qed.

(** Naming the dialect in the environment or in the configuration. *)
Lemma url_env_dialect : forall c e d, unset (dc_dialect c) -> getenv (e ++ "DIALECT")%string = Some d -> d <> "" ->
  database_url getenv to_int (dc_dialect c) (Some e) (dc_host c) (dc_port c) (dc_database c) (dc_username c) (dc_password c) =
  database_url getenv to_int (Some d) (Some e) (dc_host c) (dc_port c) (dc_database c) (dc_username c) (dc_password c).
Proof.
  intros c e d U D N. unfold database_url, var. rewrite D.
  replace (or_str (dc_dialect c) (Some d)) with (Some d); [|destruct U as [-> | ->]; reflexivity].
  replace (or_str (Some d) (Some d)) with (Some d); [reflexivity|]. now destruct d.
Qed.
Theorem env_dialect_partial : forall c e d, unset (dc_dialect c) -> getenv (e ++ "DIALECT")%string = Some d ->
  (d = "mysql" \/ (d = "postgres" /\ ~ tls_required getenv e (dc_ssl c)) \/
   (d = "sqlite" /\ ~ tls_required getenv e (dc_ssl c) /\ dc_sqlite c = [] /\ exists i, set_to (dc_isolation c) i)) ->
  database_engine getenv to_int c (Some e) = database_engine getenv to_int (with_dialect c d) (Some e).
Proof.
  intros c e d U D H. assert (N : d <> "") by (destruct H as [->|[(-> & _)|(-> & _)]]; discriminate).
  unfold database_engine. rewrite (url_env_dialect U D N). cbn [with_dialect dc_dialect dc_host dc_port dc_database dc_username dc_password dc_session_sqls dc_sqlite dc_isolation dc_ssl].
  replace (match dc_dialect c with Some d0 => String.eqb d0 "sqlite" | None => false end) with false by (destruct U as [-> | ->]; reflexivity).
  replace (match or_str (dc_dialect c) None with Some d0 => d0 | None => "mysql" end) with "mysql" by (destruct U as [-> | ->]; reflexivity).
  replace (match or_str (Some d) None with Some d0 => d0 | None => "mysql" end) with d by now destruct d.
  destruct H as [->|[(-> & T)|(-> & T & S & i & I & NI)]]; [reflexivity| |].
  - rewrite !(proj1 (tls_spec (dc_ssl c) _ e) T). reflexivity.
  - rewrite !(proj1 (tls_spec (dc_ssl c) _ e) T), S, I. destruct i; [congruence|]. reflexivity.
Qed.

(** The attached files come first, in order, then the session statements; attached only if the configuration says sqlite. *)
Theorem session_spec : forall c e g, database_engine getenv to_int c e = Ok g ->
  exists attach, eg_session g = attach ++ dc_session_sqls c /\
    (dc_dialect c = Some "sqlite" -> Forall2 (fun kv s => exists t, s = ("ATTACH DATABASE '" ++ t ++ "' as " ++ fst kv)%string /\ literal t (snd kv)) (dc_sqlite c) attach) /\
    (dc_dialect c <> Some "sqlite" -> attach = []).
Proof.
  intros c e g H. unfold database_engine in H. destruct (database_url _ _ _ _ _ _ _ _ _) as [u|]; [|discriminate]. cbn [bind] in H.
  destruct (get_connect_args _ _ _ _) as [a|]; [|discriminate]. cbn [bind] in H. inv H. cbn [eg_session]. eexists. split; [reflexivity|].
  destruct (dc_dialect c) as [d|].
  - destruct (String.eqb_spec d "sqlite") as [->|N].
    + split; [|congruence]. intros _. induction (dc_sqlite c) as [|(k, f) l IH]; cbn; constructor; auto. exists (escape f). split; auto. cbn.
      clear. induction f as [|ch f IH]; cbn; [constructor|]. destruct (Ascii.eqb_spec ch "'"); [subst|]; now constructor.
    + split; [congruence|reflexivity].
  - split; [discriminate|reflexivity].
Qed.
End Env.
