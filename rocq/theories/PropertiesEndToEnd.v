(** * PropertiesEndToEnd: from the URL that init prints to clients on the network (C69)

    The commands of [Commands] and the network of [Net], put together. *)

From Verif Require Import Base Utf8 Crypto Toy Types Codec Secret Store StoreProofs Lru Server System ServerVocab Cli
  ConnUrl PropertiesUrl Startup PropertiesStartup ConfigText PropertiesConfigText Commands PropertiesCommands Wire Handshake
  Client Asks World WorldVocab WorldProofs3 Net NetVocab NetProofs NetProofs2 PropertiesNet.
From Verif Require PropertiesCli PropertiesWorld Demo DemoWorld DemoNet.

(** Once a keystore has been made in a directory, all that clients do with it, over any network, with the
    servers that are started there one after another, is the history of one keystore.  Clients that have the URL
    that init printed and the passphrase can use each of the servers, and what was created with one of them is
    there in every later one. *)
Theorem C69_clients :
  forall C, CryptoOk C -> forall Y, YamlOk Y ->
  forall version rcgen comps before stdin ops mem r k u,
    let exec := exec C Y version rcgen (abs comps) in
    let execs := execs C Y version rcgen (abs comps) in
    let pass := command_passphrase stdin in
    place comps -> Startup.draws_ok r -> (ops < 2 ^ 32)%N -> (mem < 2 ^ 32)%N ->
    exec (execs nothing before) (CInit stdin ops mem r) = (k, Said u) ->
  exists key g, aim u = Some (abs (comps ++ [str "socket"]), key) /\ g_id_pk g = key
    /\ forall after evs N more,
         only C Y k pass after -> Forall ntyped (N ++ more) ->
         ~ forged sql_store g (N ++ more) -> nids_differ sql_store g (N ++ more) ->
         nserver_evs sql_store g (N ++ more) = lived C pass after ++ EvRestart :: evs ->
         (forall stdin' fb, command_passphrase stdin' = pass ->
            running C Y version rcgen (execs k after) stdin' fb evs = Some (g, n_srv (nrun sql_store g (N ++ more))))
         /\ (forall cid k1 k2 exact v1 v2, exact = None \/ exact = Some version ->
               let h := How key pass exact in
               nwell sql_store g (N ++ more) cid k1 (AHello key) v1 ->
               nwell sql_store g (N ++ more) cid k2 (AUnlock pass) v2 ->
               proceed h (proceed h ToHello v1) v2 = Usable)
         /\ (forall cid j a v i, ngives sql_store g N cid j a (Ok v) -> creates a v = Some i ->
             forall cid' j', nunlocked sql_store g N cid' -> nnot_made sql_store g N cid' j' ->
             (forall res, nwell sql_store g (N ++ more) cid' j' (AGet (info_tag i)) res -> res = Ok (VInfo i))
             /\ (forall t si p data res, i = ISeed t si ->
                   nwell sql_store g (N ++ more) cid' j' (ASign (si_ed si) p data) res ->
                   exists sig, res = Ok (VBytes sig) /\ sign_verify C (si_ed si) sig data = true)).
Proof.
  intros C HC Y HY version rcgen comps before stdin ops mem r k u exec0 execs0 pass Hpl Hr Ho Hm Hi.
  destruct (C69_one_keystore C HC Y HY version rcgen comps before stdin ops mem r k u Hpl Hr Ho Hm Hi)
    as (g & Eg & _ & _ & Hver & Haim & Hright & Hone).
  exists (g_id_pk g), g. split; [done|]. split; [done|]. intros after evs N more Hon Ht Hf Hd He.
  assert (CryptoOk (g_crypto g)) as HC' by (by rewrite Eg).
  destruct (Hone after Hon) as [_ Hrun].
  destruct (sim_run sql_store g HC' _ Ht Hf) as (wevs & Hw & R & _).
  pose proof (tr_ids _ _ _ _ R Hd) as Hwd.
  split; [|split].
  - intros stdin' fb Hp. destruct (Hrun stdin' fb evs Hp) as [_ Hr']. unfold execs0. etransitivity; [exact Hr'|]. do 2 f_equal.
    destruct (PropertiesWorld.C58_parts sql_store sql_store_ok g HC' wevs Hw) as [E _].
    rewrite <- (nr_srv _ _ _ _ R), E. f_equal. fold pass. rewrite <- He. symmetry. apply (nr_evs _ _ _ _ R).
  - intros cid k1 k2 exact v1 v2 Hex h H1 H2.
    apply (PropertiesWorld.C61_succeeds sql_store sql_store_ok g HC' wevs Hw Hwd cid k1 k2 h v1 v2).
    + by apply (tr_well _ _ _ _ R _ _ _ _ H1).
    + by apply (tr_well _ _ _ _ R _ _ _ _ H2).
    + done.
    + intros w E. cbn in E. destruct Hex as [->| ->]; [done|]. injection E as <-. exact Hver.
    + exact Hright.
  - intros cid j a v i Hg Hcr cid' j' Hu Hn. split.
    + intros res Hres. eapply (C62_get sql_store sql_store_ok g HC' N more Ht Hf Hd); try done. by left.
    + intros t si p data res -> Hres. rewrite <- Eg.
      eapply (C62_sign sql_store sql_store_ok g HC' N more Ht Hf Hd); try done. by left.
Qed.
Print Assumptions C69_clients.

(** A keystore is made; a client of the first server makes a seed; the server is stopped and another one
    started; another client looks the seed up.  The keystore is the one of [DemoWorld]. *)
Notation env := DemoWorld.env.
Notation seed_key := Demo.demo_seed.
Definition e_draws : Startup.draws :=
  Startup.Draws (Demo.fill 16 x01) Demo.demo_salt (Demo.fill 32 x33) seed_key (Demo.fill 24 x02) (Demo.fill 24 x09).
Definition e_exec := exec toy yaml0 (str "0.0.0") (g_rcgen env) (abs ex_comps).
Definition e_init : command := CInit (str "pass" ++ PropertiesCli.LF) 2 3 e_draws.
Definition e_made : keydir := fst (e_exec nothing e_init).
Definition e_life1 : list nevent := NServer EvRestart 0 :: DemoNet.one.
Definition e_life2 : list nevent :=
  Eval vm_compute in
    DemoNet.play (nrun sql_store env e_life1)
      ([fun _ => [NServer EvRestart 0; NConnect 3 seed_key (DemoNet.drawn_keys x70)]]
       ++ DemoNet.ncall 3 0 "c0" (AHello (g_id_pk env)) x00 ++ DemoNet.ncall 3 1 "c1" (AUnlock DemoWorld.pass) x00).
Definition e_more : list nevent :=
  Eval vm_compute in DemoNet.play (nrun sql_store env (e_life1 ++ e_life2)) (DemoNet.ncall 3 2 "c2" (AGet (str "s")) x00).
Definition e_after : list command := [CServer (str "pass") true (List.tl (nserver_evs sql_store env e_life1))].
Definition e_evs : list event :=
  drop (length (nserver_evs sql_store env e_life1) + 1) (nserver_evs sql_store env ((e_life1 ++ e_life2) ++ e_more)).

Example C69_clients_ex :
  place ex_comps /\ Startup.draws_ok e_draws
  /\ (exists u, e_exec nothing e_init = (e_made, Said u) /\ aim u = Some (str "/home/me/keys/socket", g_id_pk env))
  /\ option_map fst (running toy yaml0 (str "0.0.0") (g_rcgen env) e_made (str "pass") true []) = Some env
  /\ only toy yaml0 e_made (str "pass") e_after
  /\ nserver_evs sql_store env ((e_life1 ++ e_life2) ++ e_more) = lived toy (str "pass") e_after ++ EvRestart :: e_evs
  /\ Forall ntyped ((e_life1 ++ e_life2) ++ e_more)
  /\ ~ forged sql_store env ((e_life1 ++ e_life2) ++ e_more)
  /\ nids_differ sql_store env ((e_life1 ++ e_life2) ++ e_more)
  /\ nwell sql_store env ((e_life1 ++ e_life2) ++ e_more) 3 0 (AHello (g_id_pk env)) (Ok (VText (str "0.0.0")))
  /\ nwell sql_store env ((e_life1 ++ e_life2) ++ e_more) 3 1 (AUnlock (str "pass")) (Ok VUnit)
  /\ ngives sql_store env (e_life1 ++ e_life2) 1 1 (ANewSeed (str "s") None true) (Ok (VSeed DemoWorld.infoS))
  /\ nunlocked sql_store env (e_life1 ++ e_life2) 3 /\ nnot_made sql_store env (e_life1 ++ e_life2) 3 2
  /\ nwell sql_store env ((e_life1 ++ e_life2) ++ e_more) 3 2 (AGet (str "s")) (Ok (VInfo (ISeed (str "s") DemoWorld.infoS))).
Proof.
  split; [apply C69_ex|]. split; [by repeat split|]. split.
  { assert (match (e_exec nothing e_init).2 with
            | Said u => match aim u with Some (path, key) => beq path (str "/home/me/keys/socket") && beq key (g_id_pk env) | None => false end
            | _ => false
            end = true) as H by (vm_compute; reflexivity).
    unfold e_made. destruct (e_exec nothing e_init) as [k out]. cbn [fst snd] in *.
    destruct out as [u|?| |]; try done. exists u. split; [done|]. destruct (aim u) as [[path key]|]; [|done].
    apply andb_true_iff in H as [H1 H2]. apply beq_true in H1, H2. by rewrite H1, H2. }
  split; [vm_compute; reflexivity|]. split.
  { intros text cfg c p _ _ Hc Hg. unfold e_after in Hc. apply elem_of_list_singleton in Hc as ->. left.
    rewrite Hg. vm_compute. reflexivity. }
  split; [vm_compute; reflexivity|].
  split; [apply DemoNet.typedb_ok; vm_compute; reflexivity|].
  split; [apply DemoNet.not_forged; vm_compute; reflexivity|].
  split; [apply DemoNet.napart_ids; vm_compute; reflexivity|].
  split; [apply (DemoNet.ngave_well _ 3 0 "c0"); [DemoWorld.txt| |]; vm_compute; reflexivity|].
  split; [apply (DemoNet.ngave_well _ 3 1 "c1"); [DemoWorld.txt| |]; vm_compute; reflexivity|].
  split; [apply (DemoNet.ngave_gives _ 1 1 "a1"); [DemoWorld.txt|]; vm_compute; reflexivity|].
  split; [exists 1, DemoWorld.pass; apply (DemoNet.ngave_gives _ 3 1 "c1"); [DemoWorld.txt|]; vm_compute; reflexivity|].
  split; [apply DemoNet.nabsent; vm_compute; reflexivity|].
  apply (DemoNet.ngave_well _ 3 2 "c2"); [DemoWorld.txt| |]; vm_compute; reflexivity.
Qed.
