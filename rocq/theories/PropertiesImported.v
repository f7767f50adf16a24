(** * PropertiesImported: seeds imported at the command line, used by clients (C77)

    A bundle is locked with [hc_seed_bundle] ([SeedBundle]), imported by the command ([Cli],
    [Commands]) and used by clients over the network ([Client], [Asks], [Net]). *)

From Verif Require Import Base Utf8 Base64 Crypto Toy Types Codec Secret Store StoreProofs Lru Server System ServerSpec ServerVocab
  ServerTheorems SeedBundle PropertiesBundle Cli PropertiesCli
  ConnUrl PropertiesUrl Startup PropertiesStartup ConfigText PropertiesConfigText Commands PropertiesCommands Wire Handshake
  Client Asks World WorldVocab WorldProofs WorldProofs3 Net NetVocab NetProofs NetProofs2 PropertiesNet PropertiesEndToEnd.
From Verif Require PropertiesServer1 PropertiesServer3 PropertiesWorld Demo DemoWorld DemoNet.

(** What clients get of an entry that holds a seed, however it came to be stored. *)
Lemma kept_use S (SO : StoreOk S) g (HC : CryptoOk (g_crypto g)) evs more e seed tag deep_lock exportable cid k :
  Forall typed (evs ++ more) -> ids_differ S g (evs ++ more) -> keeps S SO (evs ++ more) ->
  stored S g (server_evs S g evs) e -> kept_as g e seed tag deep_lock exportable ->
  unlocked S g evs cid -> not_made S g evs cid k ->
  let pk := sign_pk (g_crypto g) seed in
  let si := SeedInfo pk (box_pk (g_crypto g) seed) exportable in
  (forall r, well S g (evs ++ more) cid k (AGet tag) r ->
     r = Ok (VInfo (if deep_lock then IDeep tag si else ISeed tag si)))
  /\ (forall data r, well S g (evs ++ more) cid k (ASign pk deep_lock data) r ->
     exists sig, r = Ok (VBytes sig) /\ sign_verify (g_crypto g) pk sig data = true)
  /\ (deep_lock <> None -> forall data r, well S g (evs ++ more) cid k (ASign pk None data) r -> exists er, r = Err er).
Proof.
  intros Ht Hd Hk He Hkept Hu Hn pk si.
  assert (Htag : tag_of e = tag /\ ed_of e = Some pk /\ info_of e = (if deep_lock then IDeep tag si else ISeed tag si)).
  { unfold kept_as in Hkept. destruct deep_lock; [destruct Hkept as (? & ? & ? & -> & _)|destruct Hkept as (? & -> & _)]; done. }
  destruct Htag as (Htag & Hed & Hinfo). split; [|split].
  - intros r Hw. destruct (later_call S SO g HC evs more cid k _ r Ht Hd Hk Hu Hn Hw)
      as (pre & c & tid & rq & d & m & [H1 H2 H3 H4 H5 H6 H7] & Hq & Hcu & Hheld & Ho).
    cbn [request_of] in H4.
    destruct (PropertiesServer1.C08_get_entry S SO g HC pre cid c tid rq m _ _ H2 H3 H6 H4) as [Hx _].
    rewrite (Hx e (Hheld e He) Htag Hcu Hq) in Ho.
    unfold outcome_is in Ho. rewrite H4 in Ho. cbn in Ho. rewrite Hinfo in Ho. by injection Ho as <-.
  - intros data r Hw. destruct (later_call S SO g HC evs more cid k _ r Ht Hd Hk Hu Hn Hw)
      as (pre & c & tid & rq & d & m & [B1 B2 B3 B4 B5 B6 B7] & Hq & Hcu & Hheld & Ho).
    unfold kept_as in Hkept. destruct deep_lock as [p|]; cbn [request_of option_map] in B4.
    + destruct Hkept as (salt & sec & key & Ee & Ha & Hop).
      destruct (PropertiesServer3.C20_deep_sign_succeeds S SO g HC pre cid c tid rq m _ _ _ _ e
        (blake2b (g_crypto g) 64 p) seed B2 B3 B4 B6 Hcu Hq (Hheld e He) Hed) as [-> Hver].
      * subst e. exists key. split; [done|]. split; [done|]. split; [by eapply sec_open_length|done].
      * apply (hide_opens g HC).
      * unfold outcome_is in Ho. rewrite B4 in Ho. cbn in Ho. injection Ho as <-. by eexists.
    + destruct Hkept as (sec & Ee & Hop).
      assert (length seed = 32) as Hl by (by eapply sec_open_length).
      rewrite (PropertiesServer3.C18_sign_succeeds S SO g HC pre cid c tid rq m _ _ _ _ e seed
        B2 B3 B4 B6 Hcu Hq (Hheld e He) Hed) in Ho by (by subst e).
      unfold outcome_is in Ho. rewrite B4 in Ho. cbn in Ho. injection Ho as <-. eexists. split; [done|].
      by apply (sign_ok _ HC).
  - intros Hdl data r Hw. destruct (later_call S SO g HC evs more cid k _ r Ht Hd Hk Hu Hn Hw)
      as (pre & c & tid & rq & d & m & [B1 B2 B3 B4 B5 B6 B7] & Hq & Hcu & Hheld & Ho).
    cbn [request_of option_map] in B4.
    assert (is_deep e = true) as Hde.
    { unfold kept_as in Hkept. destruct deep_lock; [|done]. by destruct Hkept as (? & ? & ? & -> & _). }
    pose proof (PropertiesServer3.C20_no_passphrase S SO g HC pre cid c tid rq m _ _ _ e
      B2 B3 B4 B6 Hq (Hheld e He) Hed Hde) as Hx.
    destruct m; try done. unfold outcome_is in Ho. by eexists.
Qed.

(** ** C77: a seed imported at the command line is there for clients *)

(** [given] are the lines of the text [input] without the white space around them and without those of which
    nothing remains. *)
Definition lines_typed (input : bytes) (given : list bytes) : Prop :=
  exists l tail cores ct, input = PropertiesCli.text l tail /\ Forall2 PropertiesCli.line_of l cores
    /\ x0a ∉ tail /\ PropertiesBundle.core_of tail ct
    /\ given = List.filter (fun s => negb (beq s [])) (cores ++ [ct]).

Lemma lines_passphrases input pass b deep_lock :
  lines_typed input (pass :: b :: match deep_lock with Some p => [p] | None => [] end) ->
  import_passphrases (if deep_lock then true else false) input = Ok (pass, b, deep_lock).
Proof.
  intros (l & tail & cores & ct & -> & HF & Hn & Hc & E).
  destruct (PropertiesCli.C47_import_exactly (if deep_lock then true else false)) as [H _].
  specialize (H l tail cores ct HF Hn Hc). cbv zeta in H. rewrite <- E in H.
  destruct (import_passphrases _ _) as [[[p q] [d|]]|er].
  - destruct H as [_ H]. destruct deep_lock; [by injection H as <- <- <-|done].
  - destruct H as [_ H]. destruct deep_lock; [done|by injection H as <- <-].
  - destruct deep_lock; by destruct H.
Qed.

(** A keystore is made in a directory; somebody locks a seed bundle, with a passphrase first and
    any others after it; the import command is given the bundle, that passphrase and possibly one for a deep
    lock, and says that all went well.  Then clients of every server started there later find the seed's public keys
    under the tag, and sign with its key if they give the passphrase of the deep lock (if there is one);
    without it they are refused. *)
Theorem C77_imported :
  forall C, CryptoOk C -> forall Y, YamlOk Y ->
  forall version rcgen comps before stdin ops mem r k u,
    let exec := exec C Y version rcgen (abs comps) in
    let execs := execs C Y version rcgen (abs comps) in
    let pass := command_passphrase stdin in
    place comps -> Startup.draws_ok r -> (ops < 2 ^ 32)%N -> (mem < 2 ^ 32)%N ->
    exec (execs nothing before) (CInit stdin ops mem r) = (k, Said u) ->
  exists g, g_crypto g = C /\ aim u = Some (abs (comps ++ [str "socket"]), g_id_pk g)
    /\ forall bundle b lim r0 others raw after input tag exportable fb os deep_lock later v,
    sizes_ok bundle ((AddPw b lim, r0) :: others) -> lock C bundle ((AddPw b lim, r0) :: others) = Ok raw ->
    lines_typed input (pass :: b :: match deep_lock with Some p => [p] | None => [] end) ->
    let c := CImport input (if deep_lock then true else false) tag (to_b64url raw) exportable fb os in
    only C Y k pass (after ++ later) -> (exec (execs k after) c).2 = Said v ->
  forall evs N more,
    Forall ntyped (N ++ more) -> ~ forged sql_store g (N ++ more) -> nids_differ sql_store g (N ++ more) ->
    nserver_evs sql_store g N = lived C pass (after ++ c :: later) ++ EvRestart :: evs ->
    let pk := sign_pk C (u_seed bundle) in
    let si := SeedInfo pk (box_pk C (u_seed bundle)) exportable in
    (forall stdin' fb', command_passphrase stdin' = pass ->
       running C Y version rcgen (execs k (after ++ c :: later)) stdin' fb' evs = Some (g, n_srv (nrun sql_store g N)))
    /\ forall cid j, nunlocked sql_store g N cid -> nnot_made sql_store g N cid j ->
         (forall res, nwell sql_store g (N ++ more) cid j (AGet tag) res ->
            res = Ok (VInfo (if deep_lock then IDeep tag si else ISeed tag si)))
         /\ (forall data res, nwell sql_store g (N ++ more) cid j (ASign pk deep_lock data) res ->
            exists sig, res = Ok (VBytes sig) /\ sign_verify C pk sig data = true)
         /\ (deep_lock <> None -> forall data res,
            nwell sql_store g (N ++ more) cid j (ASign pk None data) res -> exists er, res = Err er).
Proof.
  intros C HC Y HY version rcgen comps before stdin ops mem r k u exec0 execs0 pass Hpl Hr Ho Hm Hi.
  destruct (C69_one_keystore C HC Y HY version rcgen comps before stdin ops mem r k u Hpl Hr Ho Hm Hi)
    as (g & Eg & _ & _ & _ & Haim & _ & Hone). fold pass in Hone.
  exists g. split; [done|]. split; [done|].
  intros bundle b lim r0 others raw after input tag exportable fb os deep_lock later v Hsz Hlk Hty c Hon Hsaid
    evs N more Ht Hf Hd He pk si.
  pose proof (lines_passphrases _ _ _ _ Hty) as Hpp.
  assert (CryptoOk (g_crypto g)) as HC' by (by rewrite Eg).
  assert (forall l, (forall x, x ∈ l -> x ∈ after ++ later \/ x = c) -> only C Y k pass l) as Hon'.
  { intros l Hl text cfg c' p H1 H2 H3 H4. destruct (Hl c' H3) as [H5| ->]; [by eapply Hon|].
    left. destruct H4 as (b' & l' & E). congruence. }
  destruct (Hone after) as [_ R0]; [apply Hon'; set_solver|].
  destruct (Hone (after ++ [c])) as [_ R1]; [apply Hon'; set_solver|].
  destruct (Hone (after ++ c :: later)) as [_ R2]; [apply Hon'; set_solver|].
  destruct (C54_import C HC bundle _ raw 0 b lim r0 tag deep_lock exportable Hsz Hlk eq_refl)
    as (d & Himp & [Hst|(j & ? & ? & ? & Hj & _)]); [|lia].
  pose proof (C69_imported C HC Y HY version rcgen comps before stdin ops mem r k u Hpl Hr Ho Hm Hi
    after input _ tag (to_b64url raw) exportable fb os b deep_lock (u_seed bundle) d later stdin true evs g _ _ _
    Hon eq_refl Hpp Himp Hst (proj2 (R0 stdin true [] eq_refl)) (proj2 (R1 stdin true [] eq_refl))
    (proj2 (R2 stdin true evs eq_refl))) as Hres.
  cbv zeta in Hres. fold c in Hres. unfold exec0, execs0 in Hsaid. rewrite Hsaid in Hres.
  destruct Hres as (_ & e & Hkept & _ & _ & Hheld).
  destruct (sim_both sql_store g HC' N more Ht Hf) as (wevs & wmore & Wt & S1 & S2 & Kr).
  split.
  - intros stdin' fb' Hp. destruct (R2 stdin' fb' evs Hp) as [_ Hr']. unfold execs0. etransitivity; [exact Hr'|]. do 2 f_equal.
    destruct (PropertiesWorld.C58_parts sql_store sql_store_ok g HC' wevs) as [E _]; [by apply Forall_app in Wt as [? _]|].
    rewrite <- (nr_srv _ _ _ _ S1), E. f_equal. rewrite <- He. symmetry. apply (nr_evs _ _ _ _ S1).
  - intros cid j Hu Hn.
    destruct (kept_use sql_store sql_store_ok g HC' wevs wmore e (u_seed bundle) tag deep_lock exportable cid j)
      as (U1 & U2 & U3).
    + done.
    + apply (tr_ids _ _ _ _ S2 Hd).
    + by left.
    + rewrite (tr_evs _ _ _ _ S1), He. exact Hheld.
    + exact Hkept.
    + by apply (tr_unlocked _ _ _ _ S1).
    + by apply (tr_not_made _ _ _ _ S1).
    + rewrite Eg in U1, U2, U3. split; [|split].
      * intros res Hw. apply U1. by apply (tr_well _ _ _ _ S2).
      * intros data res Hw. apply (U2 data). by apply (tr_well _ _ _ _ S2).
      * intros Hdl data res Hw. apply (U3 Hdl data). by apply (tr_well _ _ _ _ S2).
Qed.
Print Assumptions C77_imported.

(** The keystore is that of [C69_clients_ex].  A bundle is imported with a deep lock; a client of a server
    started afterwards looks the seed up, signs with it, and is refused without the passphrase. *)
Definition i_bundle : SeedBundle.unlocked := ex_bundle.
Definition i_locks : list (adding * (bytes * bytes)) := [(AddPw (str "bundle") Moderate, (Demo.fill 16 x21, Demo.fill 24 x22))].
Definition i_raw : bytes := match lock toy i_bundle i_locks with Ok raw => raw | Err _ => [] end.
Definition i_input : bytes := str "pass" ++ PropertiesCli.LF ++ str " bundle " ++ PropertiesCli.LF ++ str "deep" ++ PropertiesCli.LF.
Definition i_os : list oracle := [Demo.fine x31; Demo.fine x32; Demo.fine x33].
Definition i_import : command := CImport i_input true (str "i") (to_b64url i_raw) false true i_os.
Definition i_pk : bytes := sign_pk toy (u_seed i_bundle).
Definition i_si : seed_info := SeedInfo i_pk (box_pk toy (u_seed i_bundle)) false.
Definition i_N : list nevent :=
  Eval vm_compute in
    DemoNet.play (ninit sql_store env)
      ([fun _ => map (fun e => NServer e 0) (lived toy (str "pass") [i_import]);
        fun _ => [NServer EvRestart 0; NConnect 3 seed_key (DemoNet.drawn_keys x70)]]
       ++ DemoNet.ncall 3 0 "c0" (AHello (g_id_pk env)) x00 ++ DemoNet.ncall 3 1 "c1" (AUnlock DemoWorld.pass) x00).
Definition i_more : list nevent :=
  Eval vm_compute in
    DemoNet.play (nrun sql_store env i_N)
      (DemoNet.ncall 3 2 "c2" (AGet (str "i")) x00 ++ DemoNet.ncall 3 3 "c3" (ASign i_pk (Some (str "deep")) (str "data")) x00
       ++ DemoNet.ncall 3 4 "c4" (ASign i_pk None (str "data")) x00).
Definition i_evs : list event := drop 3 (nserver_evs sql_store env i_N).

Lemma i_lines : lines_typed i_input [str "pass"; str "bundle"; str "deep"].
Proof.
  assert (forall p c, SeedBundle.trimmed p = Ok c -> PropertiesBundle.core_of p c) as H by (intros p c; apply PropertiesBundle.trimmed_core).
  assert (forall p : bytes, bool_decide (x0a ∉ p) = true -> x0a ∉ p) as H2 by (intros p E; by apply bool_decide_eq_true in E).
  exists [(str "pass", PropertiesCli.LF); (str " bundle ", PropertiesCli.LF); (str "deep", PropertiesCli.LF)], [],
    [str "pass"; str "bundle"; str "deep"], [].
  split; [reflexivity|]. split; [|split; [by apply H2|split; [by apply H|reflexivity]]].
  constructor; [|constructor; [|constructor; [|constructor]]].
  all: split; [by apply H2|]; split; [by apply H|]; left; split; [done|]; intros [r E];
    apply (f_equal (fun l => last l)) in E; rewrite last_snoc in E; done.
Qed.

Example C77_ex :
  sizes_ok i_bundle i_locks /\ lock toy i_bundle i_locks = Ok i_raw
  /\ lines_typed i_input [str "pass"; str "bundle"; str "deep"]
  /\ only toy yaml0 e_made (str "pass") []
  /\ ex_said (e_exec e_made i_import).2 = true
  /\ Forall ntyped (i_N ++ i_more) /\ ~ forged sql_store env (i_N ++ i_more) /\ nids_differ sql_store env (i_N ++ i_more)
  /\ nserver_evs sql_store env i_N = lived toy (str "pass") [i_import] ++ EvRestart :: i_evs
  /\ nunlocked sql_store env i_N 3 /\ nnot_made sql_store env i_N 3 2 /\ nnot_made sql_store env i_N 3 3 /\ nnot_made sql_store env i_N 3 4
  /\ nwell sql_store env (i_N ++ i_more) 3 2 (AGet (str "i")) (Ok (VInfo (IDeep (str "i") i_si)))
  /\ (exists sig, nwell sql_store env (i_N ++ i_more) 3 3 (ASign i_pk (Some (str "deep")) (str "data")) (Ok (VBytes sig)))
  /\ (exists er, nwell sql_store env (i_N ++ i_more) 3 4 (ASign i_pk None (str "data")) (Err er)).
Proof.
  split; [split; [done|]; split; [done|]; split; [done|]; repeat constructor|]. split; [by vm_compute|]. split; [apply i_lines|].
  split; [by intros ? ? ? ? _ _ H%elem_of_nil|]. split; [by vm_compute|].
  split; [apply DemoNet.typedb_ok; vm_compute; reflexivity|].
  split; [apply DemoNet.not_forged; vm_compute; reflexivity|].
  split; [apply DemoNet.napart_ids; vm_compute; reflexivity|].
  split; [vm_compute; reflexivity|].
  split; [exists 1, DemoWorld.pass; apply (DemoNet.ngave_gives _ 3 1 "c1"); [DemoWorld.txt|]; vm_compute; reflexivity|].
  split; [apply DemoNet.nabsent; vm_compute; reflexivity|].
  split; [apply DemoNet.nabsent; vm_compute; reflexivity|].
  split; [apply DemoNet.nabsent; vm_compute; reflexivity|].
  split; [apply (DemoNet.ngave_well _ 3 2 "c2"); [DemoWorld.txt| |]; vm_compute; reflexivity|].
  split; eexists.
  - apply (DemoNet.ngave_well _ 3 3 "c3"); [DemoWorld.txt| |]; vm_compute; reflexivity.
  - apply (DemoNet.ngave_well _ 3 4 "c4"); [DemoWorld.txt| |]; vm_compute; reflexivity.
Qed.
