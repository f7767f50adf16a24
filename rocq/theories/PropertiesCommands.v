(** * PropertiesCommands: the life of a keystore directory, command after command (C69) *)

From Verif Require Import Base Utf8 Base64 Crypto Toy Types Codec Secret Store StoreProofs Server System ServerSpec
  ServerVocab PropertiesServer1 SystemProofs PropertiesDirect Cli PropertiesCli ConnUrl PropertiesUrl Startup PropertiesStartup ConfigText
  PropertiesConfigText Commands Demo.
From Verif Require Import SeedBundle PropertiesBundle.
From Verif Require WorldVocab.

(** ** The words *)

(** The path of the directory, by its components, is text without the characters that mean something in a
    URL. *)
Definition place (comps : list bytes) : Prop :=
  utf8 (abs comps) = true /\ Forall (fun s => comp s /\ tame s) comps.

(** The keystore passphrase that a command is given. *)
Definition given (c : command) (p : bytes) : Prop :=
  match c with
  | CServer stdin _ _ => p = command_passphrase stdin
  | CImport stdin deep _ _ _ _ _ => exists b l, import_passphrases deep stdin = Ok (p, b, l)
  | _ => False
  end.

(** A key derived from the passphrase opens both encrypted secrets of the configuration. *)
Definition let_in (C : Crypto) (cfg : config) (p : bytes) : Prop :=
  exists pre, argon2id C (blake2b C 64 p) (cf_salt cfg) (cf_ops cfg) (cf_mem cfg) = Ok pre
    /\ opens C (kdf C 42 (str "CtxSecKy") pre) (cf_context cfg)
    /\ opens C (kdf C 142 (str "IdnSecKy") pre) (cf_id cfg).

(** Of the passphrases given, none but [pass] opens the configuration in the directory. *)
Definition only (C : Crypto) (Y : Yaml) (k : keydir) (pass : bytes) (cs : list command) : Prop :=
  forall text cfg c p, kd_file k = Some text -> from_bytes Y text = Some cfg ->
    c ∈ cs -> given c p -> p = pass \/ ~ let_in C cfg p.

(** What happens to one keystore in a command: a server is started and does what it does. *)
Definition lived1 (C : Crypto) (pass : bytes) (c : command) : list event :=
  match c with
  | CServer stdin _ evs => if beq (command_passphrase stdin) pass then EvRestart :: evs else []
  | CImport stdin deep tag bundle exportable _ os =>
      match import_passphrases deep stdin with
      | Ok (p, b, l) =>
          if beq p pass then
            EvRestart :: match import_seed C tag bundle b l exportable with Ok d => [EvDirect d os] | Err _ => [] end
          else []
      | Err _ => []
      end
  | _ => []
  end.
Definition lived (C : Crypto) (pass : bytes) (cs : list command) : list event := concat (map (lived1 C pass) cs).

(** The rows of the database. *)
Definition rows (k : keydir) : list row := match kd_disk k with Some (_, _, t) => t | None => [] end.

(** ** Lemmas *)

Section Lemmas.
  Variable C : Crypto.
  Hypothesis HC : CryptoOk C.
  Variable Y : Yaml.
  Variable version : bytes.
  Variable rcgen : gencert -> bool.
  Variable root : bytes.

  Notation exec := (exec C Y version rcgen root).
  Notation execs := (execs C Y version rcgen root).

  Lemma run_server_file k cfg p fb evs : kd_file (run_server C version rcgen k cfg p fb evs).1 = kd_file k.
  Proof. unfold run_server. by destruct (Startup.start _ _ _ _ _ _) as [[[[? ?] ?]|] [?|?]]. Qed.

  Lemma exec_file k c text : kd_file k = Some text -> kd_file (exec k c).1 = Some text.
  Proof.
    intros H. destruct c as [stdin ops mem r| |stdin fb evs|stdin deep tag bundle x fb os];
      cbn [Commands.exec]; unfold with_config; rewrite ?H; try done; destruct (from_bytes Y text) as [cfg|]; try done.
    - by rewrite run_server_file.
    - destruct (import_passphrases deep stdin) as [[[p b] l]|]; [|done].
      destruct (import_seed _ _ _ _ _ _) as [d|e].
      + pose proof (run_server_file k cfg p fb [EvDirect d os]) as Hf. destruct (run_server _ _ _ _ _ _ _ _) as [k' out]; cbn in *; by rewrite Hf.
      + pose proof (run_server_file k cfg p fb []) as Hf. destruct (run_server _ _ _ _ _ _ _ _) as [k' out]; cbn in *; by rewrite Hf.
  Qed.

  Lemma execs_file cs : forall k text, kd_file k = Some text -> kd_file (execs k cs) = Some text.
  Proof. induction cs as [|c cs IH]; intros k text H; [done|]. cbn. by apply IH, exec_file. Qed.

  (** Without a configuration file there is no database. *)
  Lemma exec_none k c : (kd_file k = None -> kd_disk k = None) -> kd_file (exec k c).1 = None -> kd_disk (exec k c).1 = None.
  Proof.
    intros Hk. destruct (kd_file k) as [text|] eqn:E.
    { intros H. pose proof (exec_file k c text E). congruence. }
    destruct c; cbn [Commands.exec]; unfold with_config; rewrite ?E; try by auto.
    destruct (new_config _ _ _ _ _ _ _) as [[?|?]|]; cbn; auto.
  Qed.
  Lemma execs_none cs : forall k, (kd_file k = None -> kd_disk k = None) ->
    kd_file (execs k cs) = None -> kd_disk (execs k cs) = None.
  Proof. induction cs as [|c cs IH]; intros k H; [done|]. cbn. apply IH. intros. by apply exec_none. Qed.

  Lemma init_said k stdin ops mem r k' u : exec k (CInit stdin ops mem r) = (k', Said u) ->
    kd_file k = None /\ exists cfg, new_config C root (Ok root) (command_passphrase stdin) ops mem r = Some (Ok cfg)
      /\ k' = KeyDir (Some (display Y cfg)) (kd_disk k) /\ u = url_text (cf_url cfg).
  Proof.
    cbn [Commands.exec]. destruct (kd_file k); [done|].
    destruct (new_config _ _ _ _ _ _ _) as [[cfg|?]|]; try done. intros [= <- <-]. eauto.
  Qed.

  (** One server's process, in the terms of a system that is started anew. *)
  Lemma serve_run g es evs : serve g (left_by (run sql_store g es)) evs = run sql_store g (es ++ EvRestart :: evs).
  Proof. unfold run. rewrite fold_left_app. cbn [fold_left step]. done. Qed.

  Section Generated.
    Variable pass : bytes.
    Variable ops mem : N.
    Variable r : draws.
    Variable cfg : config.
    Hypothesis Hr : draws_ok r.
    Hypothesis Hcfg : new_config C root (Ok root) pass ops mem r = Some (Ok cfg).
    Hypothesis Hback : from_bytes Y (display Y cfg) = Some cfg.

    Definition st0 : started := Started (r_context r) (box_pk C (r_id r)) (box_sk C (r_id r)).
    Definition g0 : genv := env C version rcgen cfg st0.

    Lemma no_fallback : cf_fallback cfg = None.
    Proof. clear Hback. by apply new_config_inv in Hcfg as (? & ? & ? & _ & _ & _ & ->). Qed.

    (** The directory after [es] have happened to the keystore. *)
    Definition after_es (k : keydir) (es : list event) : Prop :=
      kd_file k = Some (display Y cfg)
      /\ ((kd_disk k = None /\ es = [])
          \/ exists key, key_pragma (kdf C 142 (str "DbKSecKy") (r_context r)) = Ok key
               /\ kd_disk k = Some (key, salt_pragma (str "cipher_salt") (cf_db_salt cfg), left_by (run sql_store g0 es))).

    Lemma starts k es fb : after_es k es ->
      exists key, key_pragma (kdf C 142 (str "DbKSecKy") (r_context r)) = Ok key
        /\ Startup.start C [] cfg pass fb (kd_disk k)
           = (Some (key, salt_pragma (str "cipher_salt") (cf_db_salt cfg), left_by (run sql_store g0 es)), Ok st0).
    Proof.
      intros [Hf Hd]. unfold Startup.start. rewrite (generated_unlocks C HC _ _ _ _ _ _ _ Hr Hcfg). fold st0. cbn [st_context st0].
      rewrite no_fallback. unfold open_store.
      destruct (key_pragma (kdf C 142 (str "DbKSecKy") (r_context r))) as [key|] eqn:Ek.
      2: { exfalso. unfold key_pragma in Ek. rewrite hex_length, (kdf_len C HC) in Ek. done. }
      exists key. split; [done|]. cbn [rbind].
      destruct Hd as [[-> ->]|(key' & [= <-] & ->)].
      - by destruct fb.
      - rewrite !beq_refl. cbn [andb]. by destruct fb.
    Qed.

    Lemma run_server_step k es fb evs : after_es k es ->
      after_es (run_server C version rcgen k cfg pass fb evs).1 (es ++ EvRestart :: evs)
      /\ (run_server C version rcgen k cfg pass fb evs).2 = Said (url_text (cf_url cfg)).
    Proof.
      intros H. destruct (starts k es fb H) as (key & Hk & Hs). unfold run_server. rewrite Hs. fold g0.
      rewrite serve_run. destruct H as [Hf _]. split; [|done]. split; [exact Hf|]. right. exists key. done.
    Qed.

    Lemma refused p k fb : ~ let_in C cfg p -> exists e, Startup.start C ([] : list row) cfg p fb (kd_disk k) = (kd_disk k, Err e).
    Proof. intros Hn. apply C26_refused. intros pre Hp [H1 H2]. apply Hn. by exists pre. Qed.

    Lemma run_server_refused p k fb evs : ~ let_in C cfg p -> exists e, run_server C version rcgen k cfg p fb evs = (k, Refused e).
    Proof. intros Hn. destruct (refused p k fb Hn) as [e He]. exists e. unfold run_server. rewrite He.
      by destruct k as [f [[[? ?] ?]|]]. Qed.

    Lemma exec_step k es c : after_es k es -> (forall p, given c p -> p = pass \/ ~ let_in C cfg p) ->
      after_es (exec k c).1 (es ++ lived1 C pass c).
    Proof.
      intros H Hg. pose proof H as [Hf _].
      assert (after_es k (es ++ [])) as H0 by (by rewrite app_nil_r).
      assert (beq pass pass = true) as Hb by apply beq_refl.
      destruct c as [stdin ops' mem' r'| |stdin fb evs|stdin deep tag bundle x fb os];
        cbn [Commands.exec lived1]; unfold with_config; rewrite Hf, ?Hback; try exact H0.
      - destruct (beq (command_passphrase stdin) pass) eqn:E.
        + apply beq_true in E. rewrite E. by apply run_server_step.
        + destruct (Hg _ eq_refl) as [Hq|Hn]; [rewrite Hq in E; congruence|].
          destruct (run_server_refused _ k fb evs Hn) as [e ->]. exact H0.
      - destruct (import_passphrases deep stdin) as [[[p b] l]|] eqn:Ei; [|exact H0].
        destruct (beq p pass) eqn:E.
        + apply beq_true in E as ->. destruct (import_seed _ _ _ _ _ _) as [d|e].
          * destruct (run_server_step k es fb [EvDirect d os] H) as [H1 _]. destruct (run_server _ _ _ _ _ _ _ _). exact H1.
          * destruct (run_server_step k es fb [] H) as [H1 _]. destruct (run_server _ _ _ _ _ _ _ _). exact H1.
        + destruct (Hg p) as [->|Hn]; [cbn; eauto|congruence|].
          destruct (import_seed _ _ _ _ _ _) as [d|e].
          * destruct (run_server_refused _ k fb [EvDirect d os] Hn) as [? ->]. exact H0.
          * destruct (run_server_refused _ k fb [] Hn) as [? ->]. exact H0.
    Qed.

    Lemma execs_step cs : forall k es, after_es k es ->
      (forall c p, c ∈ cs -> given c p -> p = pass \/ ~ let_in C cfg p) ->
      after_es (execs k cs) (es ++ lived C pass cs).
    Proof.
      induction cs as [|c cs IH]; intros k es H Hg; [by rewrite app_nil_r|].
      unfold lived. cbn [map concat]. rewrite app_assoc.
      change (execs k (c :: cs)) with (execs (exec k c).1 cs). apply IH.
      - apply exec_step; [done|]. intros p. apply Hg. constructor.
      - intros c' p Hc. apply Hg. by constructor.
    Qed.

    Lemma running_step k es stdin fb evs : after_es k es -> command_passphrase stdin = pass ->
      running C Y version rcgen k stdin fb evs = Some (g0, run sql_store g0 (es ++ EvRestart :: evs)).
    Proof.
      intros H Hp. destruct (starts k es fb H) as (key & _ & Hs). unfold running. destruct H as [-> _].
      rewrite Hback, Hp, Hs. fold g0. by rewrite serve_run.
    Qed.
  End Generated.
End Lemmas.

(** The text of a generated configuration is read back. *)
Lemma generated_back C (HC : CryptoOk C) Y (HY : YamlOk Y) comps pass ops mem r cfg :
  place comps -> draws_ok r -> (ops < 2 ^ 32)%N -> (mem < 2 ^ 32)%N ->
  new_config C (abs comps) (Ok (abs comps)) pass ops mem r = Some (Ok cfg) ->
  from_bytes Y (display Y cfg) = Some cfg.
Proof.
  intros [Hu Hc] Hr Ho Hm H. apply new_config_inv in H as (pre & dir & u & _ & [= <-] & Hg & ->).
  destruct Hr as (H1 & H2 & H3 & H4 & H5 & H6).
  assert (Forall comp comps) as Hc' by (eapply Forall_impl; [exact Hc|]; by intros ? []).
  apply (C46_text_partial Y HY).
  - unfold config_ok. cbn [cf_url cf_db_salt cf_salt cf_mem cf_ops cf_context cf_id]. repeat apply conj; try done.
    + unfold generated_url in Hg. destruct (utf8 _); [|done]. eauto.
    + change 49 with (32 + ABYTES). rewrite <- H3 at 1. by apply (sec_encrypt_ok C HC).
    + change 49 with (32 + ABYTES). rewrite <- H4 at 1. by apply (sec_encrypt_ok C HC).
  - unfold before_comment. cbn [cf_pid cf_store cf_fallback last_arg]. rewrite !push_abs by done.
    assert (forall name (x : byte), x <> nl -> ~ ends_open (abs (comps ++ [name ++ [x]]))) as Hx.
    { intros name x Hx Ho'.
      assert (exists s, abs (comps ++ [name ++ [x]]) = s ++ [x]) as [s Es].
      { exists (concat (map (cons slash) comps) ++ slash :: name).
        assert (forall l, l <> [] -> abs l = concat (map (cons slash) l)) as -> by (by intros []); [|by destruct comps].
        rewrite map_app, concat_app. cbn. by rewrite app_nil_r, <- app_assoc. }
      rewrite Es in Ho'. destruct Ho' as [E|[t E]].
      - apply (f_equal last) in E. rewrite last_snoc in E. cbn in E. congruence.
      - change [nl; nl] with ([nl] ++ [nl]) in E. rewrite app_assoc in E. apply (f_equal last) in E. rewrite !last_snoc in E. congruence. }
    intros s [->|[->|[=]]].
    + by apply (Hx (str "pid_fil") x65).
    + by apply (Hx (str "store_fil") x65).
Qed.

(** Everything at once. *)
Lemma life C (HC : CryptoOk C) Y (HY : YamlOk Y) version rcgen comps before stdin ops mem r k u :
  place comps -> draws_ok r -> (ops < 2 ^ 32)%N -> (mem < 2 ^ 32)%N ->
  exec C Y version rcgen (abs comps) (execs C Y version rcgen (abs comps) nothing before) (CInit stdin ops mem r) = (k, Said u) ->
  exists cfg, new_config C (abs comps) (Ok (abs comps)) (command_passphrase stdin) ops mem r = Some (Ok cfg)
    /\ from_bytes Y (display Y cfg) = Some cfg /\ u = url_text (cf_url cfg)
    /\ after_es C Y version rcgen r cfg k [].
Proof.
  intros Hp Hr Ho Hm H. apply init_said in H as (Hf & cfg & Hc & -> & ->).
  exists cfg. split; [done|]. split; [exact (generated_back C HC Y HY comps _ _ _ _ _ Hp Hr Ho Hm Hc)|]. split; [done|].
  split; [done|]. left. split; [|done]. apply execs_none; [intros _; reflexivity|exact Hf].
Qed.

(** ** The theorems *)

(** Once a keystore has been made in a directory, nothing makes another one there: the configuration stays
    as it is, and init is refused. *)
Theorem C69_made_once :
  forall C Y version rcgen root before stdin ops mem r k u,
    let exec := exec C Y version rcgen root in
    let execs := execs C Y version rcgen root in
    exec (execs nothing before) (CInit stdin ops mem r) = (k, Said u) ->
  forall after,
    kd_file (execs k after) = kd_file k
    /\ forall stdin' ops' mem' r', exists e,
         exec (execs k after) (CInit stdin' ops' mem' r') = (execs k after, Refused e).
Proof.
  intros C Y version rcgen root before stdin ops mem r k u exec0 execs0 H after.
  apply init_said in H as (_ & cfg & _ & -> & _).
  assert (kd_file (execs0 (KeyDir (Some (display Y cfg)) (kd_disk (execs0 nothing before))) after) = Some (display Y cfg)) as Hf
    by (by apply execs_file).
  split; [exact Hf|]. intros. eexists. unfold exec0 at 1. cbn [exec]. by rewrite Hf.
Qed.
Print Assumptions C69_made_once.

(** From then on the url command prints what init printed, *)
Theorem C69_url :
  forall C, CryptoOk C -> forall Y, YamlOk Y ->
  forall version rcgen comps before stdin ops mem r k u,
    let exec := exec C Y version rcgen (abs comps) in
    let execs := execs C Y version rcgen (abs comps) in
    place comps -> draws_ok r -> (ops < 2 ^ 32)%N -> (mem < 2 ^ 32)%N ->
    exec (execs nothing before) (CInit stdin ops mem r) = (k, Said u) ->
  forall after, exec (execs k after) CUrl = (execs k after, Said u).
Proof.
  intros C HC Y HY version rcgen comps before stdin ops mem r k u exec0 execs0 Hp Hr Ho Hm H after.
  destruct (life C HC Y HY _ _ _ _ _ _ _ _ _ _ Hp Hr Ho Hm H) as (cfg & Hc & Hb & -> & Ha).
  assert (kd_file (execs0 k after) = Some (display Y cfg)) as Hf by (apply execs_file, Ha).
  unfold exec0. cbn [exec]. unfold with_config. by rewrite Hf, Hb.
Qed.
Print Assumptions C69_url.

(** and whatever is done in the directory, it is one keystore: every server started with the passphrase
    given to init starts, says the same URL, and continues where the last one was stopped, as a single
    system that is started anew now and then.  A client given the URL finds the socket in the directory and
    expects the identity the server has; and the passphrase is the one that unlocks. *)
Theorem C69_one_keystore :
  forall C, CryptoOk C -> forall Y, YamlOk Y ->
  forall version rcgen comps before stdin ops mem r k u,
    let exec := exec C Y version rcgen (abs comps) in
    let execs := execs C Y version rcgen (abs comps) in
    let pass := command_passphrase stdin in
    place comps -> draws_ok r -> (ops < 2 ^ 32)%N -> (mem < 2 ^ 32)%N ->
    exec (execs nothing before) (CInit stdin ops mem r) = (k, Said u) ->
  exists g, g_crypto g = C /\ g_fallback g = false
    /\ g_name g = str "lair-keystore-ipc" /\ g_version g = version
    /\ aim u = Some (abs (comps ++ [str "socket"]), g_id_pk g)
    /\ WorldVocab.right_pass g pass
    /\ forall after, only C Y k pass after ->
         rows (execs k after) = sh_store sql_store (s_sh sql_store (run sql_store g (lived C pass after)))
         /\ forall stdin' fb evs, command_passphrase stdin' = pass ->
              (exec (execs k after) (CServer stdin' fb evs)).2 = Said u
              /\ running C Y version rcgen (execs k after) stdin' fb evs
                 = Some (g, run sql_store g (lived C pass after ++ EvRestart :: evs)).
Proof.
  intros C HC Y HY version rcgen comps before stdin ops mem r k u exec0 execs0 pass Hp Hr Ho Hm H.
  destruct (life C HC Y HY _ _ _ _ _ _ _ _ _ _ Hp Hr Ho Hm H) as (cfg & Hc & Hb & -> & Ha).
  exists (g0 C version rcgen r cfg).
  split; [done|]. split; [by cbn; rewrite (no_fallback C _ _ _ _ _ _ Hc)|]. split; [done|]. split; [done|]. split; [|split].
  - pose proof Hc as Hc'. apply new_config_inv in Hc' as (pre & dir & u & _ & [= <-] & Hu & ->). cbn [cf_url].
    assert (length (box_pk C (r_id r)) = 32) as Hl.
    { apply (x_base_len C HC), (box_sk_len C HC). apply Hr. }
    destruct Hp as [Hutf Hcomps].
    destruct (C52_socket_path_partial comps _ Hutf Hcomps Hl) as (u1 & Hu1 & Hpath).
    assert (u1 = u) as -> by congruence.
    assert (exists d, abs comps = slash :: d /\ quest ∉ d /\ hash ∉ d) as (d & Ed & Hq & Hh).
    { pose proof (tame_concat _ Hcomps) as Ht. destruct comps as [|c0 cs]; [exists []; split; [done|split; apply not_elem_of_nil]|].
      cbn [abs map concat]. cbn [map concat] in Ht. eexists. split; [reflexivity|].
      split; intros Hin; (eapply (tame_in _ _ Ht); [|apply elem_of_cons; right; exact Hin]); left; apply elem_of_list_In; cbn; auto. }
    rewrite Ed in Hutf. destruct (C45_key_in_url_partial d _ Hutf Hq Hh Hl) as (u2 & Hu2 & Hkey).
    assert (u2 = u) as -> by congruence.
    assert (exists t, parse_url t = Some u) as [t Ht].
    { unfold generated_url in Hu. destruct (utf8 (abs comps)); [|done]. by eexists. }
    unfold aim. rewrite (C45_text_reads_back t u Ht). by rewrite Hpath, Hkey.
  - pose proof (generated_unlocks C HC _ _ _ _ _ _ _ Hr Hc) as Hun.
    apply unlock_config_inv in Hun as (pre & id & Hpre & _ & Hid & Hpk & _). by exists pre, id.
  - intros after Hon.
    assert (forall c p, c ∈ after -> given c p -> p = pass \/ ~ let_in C cfg p) as Hon'.
    { intros c p. apply (Hon (display Y cfg) cfg c p); [apply Ha|exact Hb]. }
    pose proof (execs_step C HC Y version rcgen _ _ _ _ _ cfg Hr Hc Hb after k [] Ha Hon') as Hafter. cbn [app] in Hafter. split.
    + destruct Hafter as [_ [[Hd Hn]|(key & _ & Hd)]]; unfold rows, execs0; rewrite Hd; [fold pass in Hn; rewrite Hn|]; done.
    + intros stdin' fb evs Hs. split; [|by apply (running_step C HC Y version rcgen _ _ _ _ _ cfg Hr Hc Hb)].
      unfold exec0. cbn [exec]. unfold with_config. pose proof Hafter as [Hf _]. fold execs0 in Hf. rewrite Hf, Hb, Hs.
      by apply (run_server_step C HC Y version rcgen _ _ _ _ _ cfg Hr Hc _ _ fb evs Hafter).
Qed.
Print Assumptions C69_one_keystore.

(** *** What import leaves *)

(** [e] is the entry made for the seed: under the key of the keystore, or under a passphrase. *)
Definition kept_as (g : genv) (e : Types.entry) (seed tag : bytes) (lock : option bytes) (exportable : bool) : Prop :=
  let C := g_crypto g in
  let si := SeedInfo (sign_pk C seed) (box_pk C seed) exportable in
  match lock with
  | None => exists sec, e = ESeed tag si sec /\ sec_open C 32 (g_bidi g) sec = Ok seed
  | Some p => exists salt sec k, e = EDeep tag si salt 3 268435456 sec
                /\ argon2id C (blake2b C 64 p) salt 3 268435456 = Ok k /\ sec_open C 32 k sec = Ok seed
  end.

(** A server given a passphrase that does not open the configuration is refused, and nothing changes. *)
Theorem C69_refused :
  forall C, CryptoOk C -> forall Y, YamlOk Y ->
  forall version rcgen comps before stdin ops mem r k u,
    let exec := exec C Y version rcgen (abs comps) in
    let execs := execs C Y version rcgen (abs comps) in
    place comps -> draws_ok r -> (ops < 2 ^ 32)%N -> (mem < 2 ^ 32)%N ->
    exec (execs nothing before) (CInit stdin ops mem r) = (k, Said u) ->
  forall after stdin' fb evs,
    (forall text cfg, kd_file k = Some text -> from_bytes Y text = Some cfg ->
       ~ let_in C cfg (command_passphrase stdin')) ->
    exists e, exec (execs k after) (CServer stdin' fb evs) = (execs k after, Refused e).
Proof.
  intros C HC Y HY version rcgen comps before stdin ops mem r k u exec0 execs0 Hp Hr Ho Hm H after stdin' fb evs Hno.
  destruct (life C HC Y HY _ _ _ _ _ _ _ _ _ _ Hp Hr Ho Hm H) as (cfg & Hc & Hb & -> & Ha).
  assert (kd_file (execs0 k after) = Some (display Y cfg)) as Hf by (apply execs_file, Ha).
  unfold exec0. cbn [exec]. unfold with_config. rewrite Hf, Hb.
  apply run_server_refused. apply (Hno (display Y cfg)); [apply Ha|exact Hb].
Qed.
Print Assumptions C69_refused.

(** What a server held when it was stopped, every later one holds: it is the same keystore, with the same
    identity and the same settings. *)
Theorem C69_kept :
  forall C, CryptoOk C -> forall Y, YamlOk Y ->
  forall version rcgen comps before stdin ops mem r k u,
    let exec := exec C Y version rcgen (abs comps) in
    let execs := execs C Y version rcgen (abs comps) in
    let running := running C Y version rcgen in
    let pass := command_passphrase stdin in
    place comps -> draws_ok r -> (ops < 2 ^ 32)%N -> (mem < 2 ^ 32)%N ->
    exec (execs nothing before) (CInit stdin ops mem r) = (k, Said u) ->
  forall after stdin1 fb1 evs1 later stdin2 fb2 evs2 g1 s1 g2 s2 e,
    only C Y k pass (after ++ later) -> command_passphrase stdin1 = pass -> command_passphrase stdin2 = pass ->
    running (execs k after) stdin1 fb1 evs1 = Some (g1, s1) ->
    running (execs k (after ++ CServer stdin1 fb1 evs1 :: later)) stdin2 fb2 evs2 = Some (g2, s2) ->
    g2 = g1
    /\ (holds sql_store (sh_store sql_store (s_sh sql_store s1)) e ->
        holds sql_store (sh_store sql_store (s_sh sql_store s2)) e).
Proof.
  intros C HC Y HY version rcgen comps before stdin ops mem r k u exec0 execs0 running0 pass Hp Hr Ho Hm H
    after stdin1 fb1 evs1 later stdin2 fb2 evs2 g1 s1 g2 s2 e Hon H1 H2 R1 R2.
  destruct (C69_one_keystore C HC Y HY version rcgen comps before stdin ops mem r k u Hp Hr Ho Hm H)
    as (g & Hg & _ & _ & _ & _ & _ & Hrun). fold exec0 execs0 pass in Hrun.
  assert (only C Y k pass after) as O1.
  { intros text cfg c p Hk Hb Hc. apply (Hon text cfg c p Hk Hb). apply elem_of_app. by left. }
  assert (only C Y k pass (after ++ CServer stdin1 fb1 evs1 :: later)) as O2.
  { intros text cfg c p Hk Hb Hc Hgv. apply elem_of_app in Hc as [Hc|[->|Hc]%elem_of_cons].
    - apply (Hon text cfg c p Hk Hb); [apply elem_of_app; by left|done].
    - left. cbn in Hgv. by rewrite Hgv.
    - apply (Hon text cfg c p Hk Hb); [apply elem_of_app; by right|done]. }
  destruct (Hrun _ O1) as [_ Hr1]. destruct (Hr1 stdin1 fb1 evs1 H1) as [_ E1].
  destruct (Hrun _ O2) as [_ Hr2]. destruct (Hr2 stdin2 fb2 evs2 H2) as [_ E2].
  unfold running0 in R1, R2. rewrite E1 in R1. rewrite E2 in R2. injection R1 as <- <-. injection R2 as <- <-.
  split; [done|]. intros Hh.
  assert (lived C pass (after ++ CServer stdin1 fb1 evs1 :: later) ++ EvRestart :: evs2
    = (lived C pass after ++ EvRestart :: evs1) ++ lived C pass later ++ EvRestart :: evs2) as ->.
  { unfold lived. rewrite map_app, concat_app. cbn [map concat lived1]. rewrite H1, beq_refl.
    by rewrite <- !app_assoc. }
  apply (C07_stored_for_good sql_store sql_store_ok g); [by rewrite Hg|exact Hh|by left].
Qed.
Print Assumptions C69_kept.

(** What import says of its insertion is what the keystore says. *)
Lemma import_said C (HC : CryptoOk C) Y version rcgen root pass ops mem r cfg k es input deep tag bundle x fb os b l d :
  draws_ok r -> new_config C root (Ok root) pass ops mem r = Some (Ok cfg) -> from_bytes Y (display Y cfg) = Some cfg ->
  after_es C Y version rcgen r cfg k es ->
  import_passphrases deep input = Ok (pass, b, l) -> import_seed C tag bundle b l x = Ok d ->
  (exec C Y version rcgen root k (CImport input deep tag bundle x fb os)).2
  = match direct_result sql_store (g0 C version rcgen r cfg) (run sql_store (g0 C version rcgen r cfg) (es ++ [EvRestart])) d os with
    | Some (Ok _) => Said (url_text (cf_url cfg))
    | Some (Err e) => Refused e
    | None => Stopped
    end.
Proof.
  intros Hr Hc Hb Ha Hi Hd. cbn [exec]. unfold with_config. pose proof Ha as [Hf _]. rewrite Hf, Hb, Hi, Hd.
  destruct (run_server_step C HC Y version rcgen _ _ _ _ _ cfg Hr Hc k es fb [EvDirect d os] Ha) as [_ Hs].
  destruct (run_server _ _ _ _ _ _ _ _) as [k' out]. cbn [snd] in *. subst out. unfold insert_told.
  destruct (starts C HC Y version rcgen _ _ _ _ _ cfg Hr Hc k es fb Ha) as (key & _ & Hst). rewrite Hst.
  unfold run. rewrite fold_left_app. cbn [fold_left step]. done.
Qed.

(** When import says that all went well, the seed of the bundle has been added and nothing else, and every
    later server holds it.  When it says anything else, the keystore is as it was. *)
Theorem C69_imported :
  forall C, CryptoOk C -> forall Y, YamlOk Y ->
  forall version rcgen comps before stdin ops mem r k u,
    let exec := exec C Y version rcgen (abs comps) in
    let execs := execs C Y version rcgen (abs comps) in
    let running := running C Y version rcgen in
    let pass := command_passphrase stdin in
    place comps -> draws_ok r -> (ops < 2 ^ 32)%N -> (mem < 2 ^ 32)%N ->
    exec (execs nothing before) (CInit stdin ops mem r) = (k, Said u) ->
  forall after input deep tag bundle exportable fb os b lock seed d later stdin' fb' evs g s_before s_after s_later,
    only C Y k pass (after ++ later) -> command_passphrase stdin' = pass ->
    import_passphrases deep input = Ok (pass, b, lock) ->
    import_seed C tag bundle b lock exportable = Ok d -> stores C seed tag lock exportable d ->
    let c := CImport input deep tag bundle exportable fb os in
    running (execs k after) stdin' fb' [] = Some (g, s_before) ->
    running (execs k (after ++ [c])) stdin' fb' [] = Some (g, s_after) ->
    running (execs k (after ++ c :: later)) stdin' fb' evs = Some (g, s_later) ->
    let held s e := holds sql_store (sh_store sql_store (s_sh sql_store s)) e in
    match (exec (execs k after) c).2 with
    | Said v => v = u /\ exists e, kept_as g e seed tag lock exportable
                  /\ ~ held s_before e /\ (forall e', held s_after e' <-> held s_before e' \/ e' = e) /\ held s_later e
    | _ => forall e, held s_after e <-> held s_before e
    end.
Proof.
  intros C HC Y HY version rcgen comps before stdin ops mem r k u exec0 execs0 running0 pass Hp Hr Ho Hm H
    after input deep tag bundle exportable fb os b lock seed d later stdin' fb' evs g s_before s_after s_later
    Hon Hs Hi Hd Hst c R0 R1 R2 held.
  destruct (life C HC Y HY _ _ _ _ _ _ _ _ _ _ Hp Hr Ho Hm H) as (cfg & Hc & Hb & -> & Ha). fold pass in Hc.
  assert (forall c' p, c' ∈ after ++ later -> given c' p -> p = pass \/ ~ let_in C cfg p) as Hon'.
  { intros c' p. apply (Hon (display Y cfg) cfg c' p); [apply Ha|exact Hb]. }
  assert (forall p, given c p -> p = pass) as Hgc. { intros p (b' & l' & E). congruence. }
  set (g1 := g0 C version rcgen r cfg) in *.
  assert (CryptoOk (g_crypto g1)) as HC1 by exact HC.
  pose proof (execs_step C HC Y version rcgen (abs comps) pass ops mem r cfg Hr Hc Hb) as Hes.
  pose proof (running_step C HC Y version rcgen (abs comps) pass ops mem r cfg Hr Hc Hb) as Hrs.
  assert (after_es C Y version rcgen r cfg (execs0 k after) (lived C pass after)) as A0.
  { apply (Hes after k [] Ha). intros c' p Hin. apply Hon', elem_of_app. by left. }
  assert (after_es C Y version rcgen r cfg (execs0 k (after ++ [c])) (lived C pass (after ++ [c]))) as A1.
  { apply (Hes (after ++ [c]) k [] Ha). intros c' p [Hin|Hin%elem_of_list_singleton]%elem_of_app.
    - apply Hon', elem_of_app. by left.
    - subst c'. left. by apply Hgc. }
  assert (after_es C Y version rcgen r cfg (execs0 k (after ++ c :: later)) (lived C pass (after ++ c :: later))) as A2.
  { apply (Hes (after ++ c :: later) k [] Ha). intros c' p [Hin|[Hin|Hin]%elem_of_cons]%elem_of_app.
    - apply Hon', elem_of_app. by left.
    - subst c'. left. by apply Hgc.
    - apply Hon', elem_of_app. by right. }
  pose proof (Hrs _ _ stdin' fb' [] A0 Hs) as E0. pose proof (Hrs _ _ stdin' fb' [] A1 Hs) as E1.
  pose proof (Hrs _ _ stdin' fb' evs A2 Hs) as E2. unfold running0 in R0, R1, R2.
  rewrite E0 in R0. rewrite E1 in R1. rewrite E2 in R2. fold g1 in R0, R1, R2.
  injection R0 as <- <-. injection R1 as <-. injection R2 as <-.
  assert (forall l, lived C pass (after ++ c :: l) = (lived C pass after ++ [EvRestart]) ++ [EvDirect d os] ++ lived C pass l) as El.
  { intros l. unfold lived. rewrite map_app, concat_app. cbn [map concat lived1 c]. rewrite Hi, beq_refl, Hd.
    by rewrite <- !app_assoc. }
  unfold exec0. unfold c at 1. rewrite (import_said C HC Y version rcgen (abs comps) pass ops mem r cfg _ _ _ _ _ _ _ _ _ _ _ d Hr Hc Hb A0 Hi Hd).
  fold g1. set (E := lived C pass after ++ [EvRestart]) in *.
  pose proof (C07_direct_told sql_store sql_store_ok g1 HC1 E d os) as Ht.
  assert (forall e, held (run sql_store g1 (lived C pass (after ++ [c]) ++ [EvRestart])) e <-> stored sql_store g1 (E ++ [EvDirect d os]) e) as Hre.
  { intros e. unfold held, stored, store_at. rewrite (El []), app_nil_r. fold E. unfold run.
    by rewrite (fold_left_app _ (E ++ [EvDirect d os])). }
  destruct (direct_result _ _ _ _ _) as [[[]|x]|].
  - split; [done|]. destruct Ht as (e & Hn & Hask & Hall). exists e. split; [|split; [exact Hn|split]].
    + clear -Hst Hask HC. unfold stores in Hst. unfold kept_as. destruct lock as [p|]; subst d; cbn [direct_asked] in Hask.
      * destruct Hask as ([ed x ex] & salt & sec & -> & Hx & kk & Hk & Hop & Hm). cbn in Hx, Hm. subst ex.
        destruct Hm as (_ & Hed & Hxx). cbn in Hed, Hxx. subst ed x. by eexists _, _, kk.
      * destruct Hask as ([ed x ex] & Hx & sec & -> & Hop & Hm). cbn in Hx, Hm. subst ex.
        destruct Hm as (_ & Hed & Hxx). cbn in Hed, Hxx. subst ed x. by eexists.
    + intros e'. rewrite Hre. apply Hall.
    + assert (stored sql_store g1 (E ++ [EvDirect d os]) e) as He by (apply Hall; by right).
      unfold held. rewrite El, app_assoc, <- app_assoc.
      apply (C07_stored_for_good sql_store sql_store_ok g1 HC1); [exact He|by left].
  - intros e. rewrite Hre. apply Ht.
  - intros e. rewrite Hre. apply Ht.
Qed.
Print Assumptions C69_imported.

(** It does say so when the tag and the seed are not in use and nothing fails outside. *)
Theorem C69_import_works :
  forall C, CryptoOk C -> forall Y, YamlOk Y ->
  forall version rcgen comps before stdin ops mem r k u,
    let exec := exec C Y version rcgen (abs comps) in
    let execs := execs C Y version rcgen (abs comps) in
    let running := running C Y version rcgen in
    let pass := command_passphrase stdin in
    place comps -> draws_ok r -> (ops < 2 ^ 32)%N -> (mem < 2 ^ 32)%N ->
    exec (execs nothing before) (CInit stdin ops mem r) = (k, Said u) ->
  forall after input deep tag bundle exportable fb o1 o2 o3 os b lock seed d g s,
    only C Y k pass after -> import_passphrases deep input = Ok (pass, b, lock) ->
    import_seed C tag bundle b lock exportable = Ok d -> stores C seed tag lock exportable d ->
    length seed = 32 -> text_ok tag ->
    o_fail o1 = false -> o_fail o2 = false -> o_fail o3 = false ->
    (forall p salt, lock = Some p -> length salt = 16 ->
       is_ok (argon2id C (blake2b C 64 p) salt 3 268435456) = true) ->
    running (execs k after) stdin fb [] = Some (g, s) ->
    (forall e, holds sql_store (sh_store sql_store (s_sh sql_store s)) e ->
       tag_of e <> tag /\ ed_of e <> Some (sign_pk C seed) /\ x_of e <> Some (box_pk C seed)) ->
    (exec (execs k after) (CImport input deep tag bundle exportable fb (o1 :: o2 :: o3 :: os))).2 = Said u.
Proof.
  intros C HC Y HY version rcgen comps before stdin ops mem r k u exec0 execs0 running0 pass Hp Hr Ho Hm H
    after input deep tag bundle exportable fb o1 o2 o3 os b lock seed d g s
    Hon Hi Hd Hst Hl [Ht1 Ht2] F1 F2 F3 Hh R0 Hun.
  destruct (life C HC Y HY _ _ _ _ _ _ _ _ _ _ Hp Hr Ho Hm H) as (cfg & Hc & Hb & -> & Ha). fold pass in Hc.
  assert (forall c' p, c' ∈ after -> given c' p -> p = pass \/ ~ let_in C cfg p) as Hon'.
  { intros c' p. apply (Hon (display Y cfg) cfg c' p); [apply Ha|exact Hb]. }
  pose proof (execs_step C HC Y version rcgen (abs comps) pass ops mem r cfg Hr Hc Hb after k [] Ha Hon') as A0. cbn [app] in A0.
  pose proof (running_step C HC Y version rcgen (abs comps) pass ops mem r cfg Hr Hc Hb _ _ stdin fb [] A0 eq_refl) as E0.
  unfold running0, execs0 in R0. rewrite E0 in R0. injection R0 as <- <-.
  unfold exec0, execs0. rewrite (import_said C HC Y version rcgen (abs comps) pass ops mem r cfg _ _ _ _ _ _ _ _ _ _ _ d Hr Hc Hb A0 Hi Hd).
  rewrite (C07_direct_works sql_store sql_store_ok (g0 C version rcgen r cfg) HC _ d seed tag); try done.
  - unfold stores in Hst. destruct lock as [p|]; subst d; cbn [inserts]; [|done]. repeat split. intros salt. by apply Hh.
  - assert (text_okb tag = true) as Htag by (unfold text_okb; rewrite Ht1; by apply N.ltb_lt).
    unfold stores in Hst. destruct lock as [p|]; subst d; cbn [direct_okb]; rewrite Hl, Htag, ?(blake2b_len C HC); done.
Qed.
Print Assumptions C69_import_works.

(** It does not when the passphrases are not given as asked for, when the keystore's is wrong or when the bundle
    does not open: then it is refused, and the keystore is as it was. *)
Theorem C69_import_refused :
  forall C, CryptoOk C -> forall Y, YamlOk Y ->
  forall version rcgen comps before stdin ops mem r k u,
    let exec := exec C Y version rcgen (abs comps) in
    let execs := execs C Y version rcgen (abs comps) in
    let pass := command_passphrase stdin in
    place comps -> draws_ok r -> (ops < 2 ^ 32)%N -> (mem < 2 ^ 32)%N ->
    exec (execs nothing before) (CInit stdin ops mem r) = (k, Said u) ->
  forall after input deep tag bundle exportable fb os,
    let c := CImport input deep tag bundle exportable fb os in
    only C Y k pass (after ++ [c]) ->
    (forall b lock d, import_passphrases deep input = Ok (pass, b, lock) ->
                      import_seed C tag bundle b lock exportable <> Ok d) ->
    exists k' e, exec (execs k after) c = (k', Refused e)
      /\ kd_file k' = kd_file (execs k after) /\ rows k' = rows (execs k after).
Proof.
  intros C HC Y HY version rcgen comps before stdin ops mem r k u exec0 execs0 pass Hp Hr Ho Hm H
    after input deep tag bundle exportable fb os c Hon Hno.
  destruct (life C HC Y HY _ _ _ _ _ _ _ _ _ _ Hp Hr Ho Hm H) as (cfg & Hc & Hb & -> & Ha). fold pass in Hc.
  assert (forall c' p, c' ∈ after ++ [c] -> given c' p -> p = pass \/ ~ let_in C cfg p) as Hon'.
  { intros c' p. apply (Hon (display Y cfg) cfg c' p); [apply Ha|exact Hb]. }
  pose proof (execs_step C HC Y version rcgen (abs comps) pass ops mem r cfg Hr Hc Hb after k [] Ha) as A0.
  specialize (A0 (fun c' p Hin => Hon' c' p (proj2 (elem_of_app _ _ _) (or_introl Hin)))). cbn [app] in A0.
  fold execs0 in A0. unfold exec0, c. cbn [exec]. unfold with_config. pose proof A0 as [Hf _]. rewrite Hf, Hb.
  destruct (import_passphrases deep input) as [[[p b] lock]|e] eqn:Ei; [|by eexists _, _].
  assert (p = pass \/ ~ let_in C cfg p) as Hp'.
  { apply (Hon' c); [apply elem_of_app; right; constructor|]. by exists b, lock. }
  destruct Hp' as [->|Hn].
  - destruct (import_seed _ _ _ _ _ _) as [d|e] eqn:Ed; [by destruct (Hno _ _ _ eq_refl Ed)|].
    destruct (starts C HC Y version rcgen _ _ _ _ _ cfg Hr Hc _ _ fb A0) as (key & _ & Hst).
    unfold run_server. rewrite Hst. eexists _, _. split; [reflexivity|]. split; [exact Hf|].
    destruct A0 as [_ [[Hd El]|(key' & _ & Hd)]]; unfold rows; cbn [kd_disk]; rewrite Hd; [by rewrite El|done].
  - destruct (import_seed _ _ _ _ _ _) as [d|e].
    + destruct (run_server_refused C version rcgen cfg p (execs0 k after) fb [EvDirect d os] Hn) as [e ->]. by eexists _, _.
    + destruct (run_server_refused C version rcgen cfg p (execs0 k after) fb [] Hn) as [e' ->]. by eexists _, _.
Qed.
Print Assumptions C69_import_refused.

(** A directory in which servers are started with a wrong passphrase, the right one with and without a line
    end, init is tried again and a seed is imported. *)
Definition ex_comps : list bytes := [str "home"; str "me"; str "keys"].
Definition ex_init : command := CInit (str "pw" ++ LF) 2 3 demo_draws.
Definition ex_imported : bytes := match lock toy ex_bundle ex_adding with Ok raw => to_b64url raw | Err _ => [] end.
Definition ex_before : list command := [CUrl; CServer (str "pw") true []].
Definition ex_first : list command := [CServer (str "bad" ++ LF) true []].
Definition ex_evs : list event := [EvDirect (DInsertSeed (fill 32 x09) (str "a") true) [fine x01; fine x02; fine x03]].
Definition ex_import : command :=
  CImport (str "pw" ++ LF ++ str "pass") false (str "t") ex_imported true true [fine x01; fine x02; fine x03].
Definition ex_later : list command := [CInit (str "pw") 2 3 demo_draws; ex_import; CUrl; CServer (str "worse") true []].
Definition ex_execs := execs toy yaml0 (str "0") (fun _ => true) (abs ex_comps).
Definition ex_exec := exec toy yaml0 (str "0") (fun _ => true) (abs ex_comps).
Definition ex_made : keydir := fst (ex_exec (ex_execs nothing ex_before) ex_init).
Definition ex_tags (o : option (genv * sys sql_store)) : option (list bytes) :=
  option_map (fun gs => map r_tag (left_by (snd gs))) o.

Example C69_ex :
  place ex_comps /\ draws_ok demo_draws
  /\ (exists u, ex_exec (ex_execs nothing ex_before) ex_init = (ex_made, Said u)
       /\ aim u = Some (str "/home/me/keys/socket", box_pk toy (fill 32 x04)))
  /\ only toy yaml0 ex_made (str "pw") (ex_first ++ ex_later)
  /\ ex_tags (running toy yaml0 (str "0") (fun _ => true) (ex_execs ex_made ex_first) (str "pw") true ex_evs) = Some [str "a"]
  /\ ex_tags (running toy yaml0 (str "0") (fun _ => true)
       (ex_execs ex_made (ex_first ++ CServer (str "pw") true ex_evs :: ex_later)) (str "pw" ++ CRLF) true [])
     = Some [str "a"; str "t"].
Proof.
  split; [|split; [|split; [|split; [|split]]]].
  - split; [by vm_compute|]. unfold ex_comps.
    repeat constructor; try done; by apply (bool_decide_unpack _).
  - by repeat split.
  - assert (match (ex_exec (ex_execs nothing ex_before) ex_init).2 with
            | Said u => match aim u with Some (path, key) => beq path (str "/home/me/keys/socket") && beq key (box_pk toy (fill 32 x04)) | None => false end
            | _ => false
            end = true) as H by (vm_compute; reflexivity).
    unfold ex_made. destruct (ex_exec (ex_execs nothing ex_before) ex_init) as [k out]. cbn [fst snd] in *.
    destruct out as [u|?| |]; try done. exists u. split; [done|]. destruct (aim u) as [[path key]|]; [|done].
    apply andb_true_iff in H as [H1 H2]. apply beq_true in H1, H2. by rewrite H1, H2.
  - intros text cfg c p Hk Hb Hc Hg.
    assert (p = str "pw" \/ p ∈ [str "bad"; str "worse"]) as [->|Hp].
    { clear -Hc Hg. unfold ex_first, ex_later in Hc. cbn [app] in Hc.
      repeat (apply elem_of_cons in Hc as [->|Hc]; cbn [given ex_import] in Hg; try done;
              try (by subst p; right; apply elem_of_list_In; vm_compute; tauto)).
      - destruct Hg as (b & l & E). left.
        assert (match import_passphrases false (str "pw" ++ LF ++ str "pass") with Ok (p, _, _) => beq p (str "pw") | Err _ => false end = true)
          as H by (by vm_compute). rewrite E in H. by apply beq_true.
      - by apply elem_of_nil in Hc. }
    { by left. }
    right. intros (pre & Ha & Ho & _). unfold opens in Ho.
    assert (match kd_file ex_made with
            | Some t => match from_bytes yaml0 t with
                | Some cfg => forallb (fun p => match argon2id toy (blake2b toy 64 p) (cf_salt cfg) (cf_ops cfg) (cf_mem cfg) with
                    | Ok pre => negb (is_ok (sec_open toy 32 (kdf toy 42 (str "CtxSecKy") pre) (cf_context cfg)))
                    | Err _ => true end) [str "bad"; str "worse"]
                | None => false end
            | None => false end = true) as H by (vm_compute; reflexivity).
    rewrite Hk, Hb in H. rewrite forallb_forall in H. specialize (H p). rewrite Ha, Ho in H.
    apply elem_of_list_In in Hp. by specialize (H Hp).
  - by vm_compute.
  - by vm_compute.
Qed.

(** The import goes through once; the second time the tag is in use, it is refused and nothing is added. *)
Definition ex_said (o : output) : bool := match o with Said _ => true | _ => false end.
Example C69_import_ex :
  import_passphrases false (str "pw" ++ LF ++ str "pass") = Ok (str "pw", str "pass", None)
  /\ (exists d, import_seed toy (str "t") ex_imported (str "pass") None true = Ok d
                /\ stores toy (fill 32 x07) (str "t") None true d)
  /\ ex_said (ex_exec (ex_execs ex_made ex_first) ex_import).2 = true
  /\ ex_said (ex_exec (ex_execs ex_made (ex_first ++ [ex_import])) ex_import).2 = false
  /\ is_ok (import_seed toy (str "t") ex_imported (str "wrong") None true) = false
  /\ ex_tags (running toy yaml0 (str "0") (fun _ => true) (ex_execs ex_made ex_first) (str "pw") true []) = Some []
  /\ ex_tags (running toy yaml0 (str "0") (fun _ => true) (ex_execs ex_made (ex_first ++ [ex_import])) (str "pw") true [])
     = Some [str "t"]
  /\ ex_tags (running toy yaml0 (str "0") (fun _ => true) (ex_execs ex_made (ex_first ++ [ex_import; ex_import])) (str "pw") true [])
     = Some [str "t"].
Proof.
  split; [by vm_compute|]. split.
  { assert (match import_seed toy (str "t") ex_imported (str "pass") None true with
            | Ok (DInsertSeed s t x) => beq s (fill 32 x07) && beq t (str "t") && x | _ => false end = true) as H
      by (vm_compute; reflexivity).
    destruct (import_seed _ _ _ _ _ _) as [[|s t x| | |]|]; try done. exists (DInsertSeed s t x). split; [done|].
    apply andb_true_iff in H as [H ->]. apply andb_true_iff in H as [H1 H2]. apply beq_true in H1, H2. by subst. }
  repeat (split; [by vm_compute|]). by vm_compute.
Qed.
