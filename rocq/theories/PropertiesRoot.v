(** * PropertiesRoot: a keystore is its directory, by whatever name (C75) *)

From Verif Require Import Base Utf8 Crypto Toy Types Codec Secret Store Server System Cli ConnUrl PropertiesUrl Startup
  PropertiesStartup ConfigText PropertiesConfigText Commands Demo PropertiesCommands Root.

(** ** The words *)

(** How a name is followed: from a directory, component by component, through [n] links. An empty component
    and [.] stay, [..] goes up, a directory is entered, a link is followed from where it is or from the
    root directory. *)
Inductive leads (f : tree) : nat -> list bytes -> list bytes -> list bytes -> Prop :=
| lead_here p : leads f 0 p [] p
| lead_stay n here c rest p :
    c = [] \/ c = str "." -> leads f n here rest p -> leads f n here (c :: rest) p
| lead_up n here rest p : leads f n (removelast here) rest p -> leads f n here (str ".." :: rest) p
| lead_down n here c rest p :
    comp c -> f (here ++ [c]) = Some NDir -> leads f n (here ++ [c]) rest p -> leads f n here (c :: rest) p
| lead_link n here c rest t p :
    comp c -> f (here ++ [c]) = Some (NLink t) -> t <> [] ->
    leads f n (if absolute t then [] else here) (split_on slash t ++ rest) p ->
    leads f (S n) here (c :: rest) p.

(** In the directory [cwd], [path] is a name of the directory [p]; the system follows 40 links. *)
Definition names (f : tree) (cwd : list bytes) (path : bytes) (p : list bytes) : Prop :=
  path <> [] /\ exists n, n <= 40 /\ leads f n (if absolute path then [] else cwd) (split_on slash path) p.

(** A directory by its path without links. *)
Definition real (f : tree) (p : list bytes) : Prop :=
  Forall comp p /\ forall q, q <> [] -> q `prefix_of` p -> f q = Some NDir.

(** The commands that were given to the directory [p], whatever the names. *)
Inductive given_to (p : list bytes) : tree -> list hevent -> list command -> Prop :=
| to_none f : given_to p f [] []
| to_this f cwd path c es cs :
    names f cwd path p -> given_to p f es cs -> given_to p f (HCommand cwd path c :: es) (c :: cs)
| to_other f cwd path c es cs :
    ~ names f cwd path p -> given_to p f es cs -> given_to p f (HCommand cwd path c :: es) cs
| to_tree f e es cs :
    (forall cwd path c, e <> HCommand cwd path c) ->
    given_to p (grow f e) es cs -> given_to p f (e :: es) cs.

(** ** Lemmas *)

Lemma comp_tests c : slash ∉ c -> beq c [] = false -> beq c (str ".") = false -> beq c (str "..") = false -> comp c.
Proof. intros Hs H1 H2 H3. split; [|split; [done|split]]; by apply beq_false. Qed.

Lemma comp_beq c : comp c -> beq c [] = false /\ beq c (str ".") = false /\ beq c (str "..") = false.
Proof. intros (H1 & _ & H2 & H3). repeat split; by apply beq_false. Qed.

Lemma split_free t : Forall (fun c => slash ∉ c) (split_on slash t).
Proof.
  eapply Forall_impl; [apply split_on_free|]. intros c Hc Hin. rewrite Forall_forall in Hc. specialize (Hc _ Hin).
  by apply is_false in Hc.
Qed.

Lemma walk_cons f links here c rest :
  walk f links here (c :: rest) =
    if beq c [] || beq c (str ".") then walk f links here rest
    else if beq c (str "..") then walk f links (removelast here) rest
    else match f (here ++ [c]) with
         | Some NDir => walk f links (here ++ [c]) rest
         | Some (NLink (b :: t)) =>
             match links with
             | O => None
             | S links => walk f links (if absolute (b :: t) then [] else here) (split_on slash (b :: t) ++ rest)
             end
         | _ => None
         end.
Proof. by destruct links. Qed.

Lemma walk_nil f links here : walk f links here [] = Some here.
Proof. by destruct links. Qed.

Lemma walk_sound f p : forall links here todo,
  Forall (fun c => slash ∉ c) todo -> walk f links here todo = Some p ->
  exists n, n <= links /\ leads f n here todo p.
Proof.
  induction links as [links IHl] using lt_wf_ind. intros here todo. revert here.
  induction todo as [|c rest IH]; intros here Hf.
  { rewrite walk_nil. intros [= <-]. exists 0. split; [lia|constructor]. }
  apply Forall_cons in Hf as [Hc Hr]. rewrite walk_cons.
  destruct (beq c [] || beq c (str ".")) eqn:E1.
  { intros H. destruct (IH _ Hr H) as (n & Hn & Hl). exists n. split; [done|]. constructor; [|done].
    apply orb_true_iff in E1 as [E|E]; apply beq_true in E; auto. }
  apply orb_false_iff in E1 as [E1 E2]. destruct (beq c (str "..")) eqn:E3.
  { apply beq_true in E3 as ->. intros H. destruct (IH _ Hr H) as (n & Hn & Hl). exists n. split; [done|]. by constructor. }
  pose proof (comp_tests c Hc E1 E2 E3) as Hcomp.
  destruct (f (here ++ [c])) as [[| |[|b t]]|] eqn:Ef; try done.
  - intros H. destruct (IH _ Hr H) as (n & Hn & Hl). exists n. split; [done|]. by apply lead_down.
  - destruct links as [|links]; [done|]. intros H.
    destruct (IHl links (Nat.lt_succ_diag_r _) _ _ (proj2 (Forall_app _ _ _) (conj (split_free (b :: t)) Hr)) H) as (n & Hn & Hl).
    exists (S n). split; [lia|]. by eapply lead_link.
Qed.

Lemma walk_complete f n here todo p : leads f n here todo p -> forall links, n <= links -> walk f links here todo = Some p.
Proof.
  induction 1 as [p|n here c rest p Hc _ IH|n here rest p _ IH|n here c rest p Hc Hf _ IH|n here c rest t p Hc Hf Ht _ IH];
    intros links Hl.
  - apply walk_nil.
  - rewrite walk_cons. destruct Hc as [Hc | Hc]; subst c; by apply IH.
  - rewrite walk_cons. by apply IH.
  - rewrite walk_cons. destruct (comp_beq c Hc) as [-> [-> ->]]. cbn [orb]. rewrite Hf. by apply IH.
  - rewrite walk_cons. destruct (comp_beq c Hc) as [-> [-> ->]]. cbn [orb]. rewrite Hf. destruct t as [|b t]; [done|].
    destruct links as [|links]; [lia|]. apply IH. lia.
Qed.

Lemma canonical_iff f cwd path p : canonicalize f cwd path = Some p <-> names f cwd path p.
Proof.
  unfold canonicalize, names. destruct path as [|b path]; [split; [done|by intros [? _]]|]. split.
  - intros H. split; [done|]. by apply walk_sound in H; [|apply split_free].
  - intros (_ & n & Hn & Hl). by apply (walk_complete _ _ _ _ _ Hl).
Qed.

Lemma names_one f cwd path p q : names f cwd path p -> names f cwd path q -> p = q.
Proof. rewrite <- !canonical_iff. congruence. Qed.

Lemma removelast_prefix {A} (l : list A) : removelast l `prefix_of` l.
Proof.
  destruct l as [|x l _] using rev_ind; [done|]. rewrite removelast_last. by apply prefix_app_r.
Qed.

Lemma real_nil f : real f [].
Proof. split; [done|]. intros q Hq Hp. by apply prefix_nil_inv in Hp. Qed.

Lemma real_prefix f p q : real f p -> q `prefix_of` p -> real f q.
Proof.
  intros [Hc Hd] Hq. split; [destruct Hq as [k ->]; by apply Forall_app in Hc as [? _]|].
  intros q' Hn Hp. apply Hd; [done|]. by etrans.
Qed.

Lemma real_snoc f p c : real f p -> comp c -> f (p ++ [c]) = Some NDir -> real f (p ++ [c]).
Proof.
  intros [Hc Hd] Hcc Hf. split; [apply Forall_app; by split; [|apply Forall_singleton]|].
  intros q Hn [k Hk]. destruct k as [|x k _] using rev_ind; [rewrite app_nil_r in Hk; by subst q|].
  rewrite app_assoc in Hk. apply app_inj_tail in Hk as [-> _]. apply Hd; [done|]. by apply prefix_app_r.
Qed.

Lemma leads_real f n here todo p : leads f n here todo p -> real f here -> real f p.
Proof.
  induction 1 as [p|n here c rest p Hc _ IH|n here rest p _ IH|n here c rest p Hc Hf _ IH|n here c rest t p Hc Hf Ht _ IH]; intros Hr.
  - done.
  - by apply IH.
  - apply IH. eapply real_prefix; [exact Hr|apply removelast_prefix].
  - apply IH. by apply real_snoc.
  - apply IH. destruct (absolute t); [apply real_nil|done].
Qed.

Lemma names_real f cwd path p : real f cwd -> names f cwd path p -> real f p.
Proof. intros Hr (_ & n & _ & Hl). apply (leads_real _ _ _ _ _ Hl). by destruct (absolute path); [apply real_nil|]. Qed.

Lemma split_path p : p <> [] -> Forall comp p -> split_on slash (path_of p) = [] :: p.
Proof.
  intros Hn Hc. assert (forall l c, comp c -> Forall comp l -> split_on slash (c ++ concat (map (cons slash) l)) = c :: l) as H.
  { clear. induction l as [|d l IH]; intros c (_ & Hs & _) Hl.
    - cbn [map concat]. rewrite app_nil_r. apply split_on_none. apply Forall_forall. intros b Hb. apply is_false. by intros <-.
    - apply Forall_cons in Hl as [Hd Hl]. cbn [map concat]. cbn [app]. rewrite split_on_app.
      + by rewrite IH.
      + apply Forall_forall. intros b Hb. apply is_false. by intros <-. }
  destruct p as [|c p]; [done|]. apply Forall_cons in Hc as [Hc Hp]. cbn [path_of map concat app split_on].
  change (is slash slash) with true. cbn iota. by rewrite H.
Qed.

Lemma leads_down f p : forall here, Forall comp p -> (forall q, q <> [] -> q `prefix_of` p -> f (here ++ q) = Some NDir) ->
  leads f 0 here p (here ++ p).
Proof.
  induction p as [|c p IH]; intros here Hc Hd; [rewrite app_nil_r; constructor|].
  apply Forall_cons in Hc as [Hcc Hc]. apply lead_down; [done|apply Hd; [done|]; apply prefix_cons, prefix_nil|].
  replace (here ++ c :: p) with ((here ++ [c]) ++ p) by (by rewrite <- app_assoc). apply IH; [done|].
  intros q Hq Hp. rewrite <- app_assoc. apply Hd; [done|]. by apply prefix_cons.
Qed.

Lemma real_names f cwd p : real f p -> names f cwd (path_of p) p.
Proof.
  intros [Hc Hd]. destruct p as [|c p]; [split; [done|]; exists 0; split; [lia|]|].
  { cbn. apply lead_stay; [by left|]. apply lead_stay; [by left|]. constructor. }
  split; [done|]. exists 0. split; [lia|]. rewrite split_path by done.
  change (absolute (path_of (c :: p))) with true. cbn iota. apply lead_stay; [by left|]. by apply (leads_down f (c :: p) []).
Qed.

Lemma put_same {A} (m : list bytes -> A) p x : put m p x p = x.
Proof. unfold put. by rewrite decide_True. Qed.
Lemma put_other {A} (m : list bytes -> A) p x q : q <> p -> put m p x q = m q.
Proof. intros H. unfold put. by rewrite decide_False. Qed.

Lemma grow_dirs f e q : f q = Some NDir -> grow f e q = Some NDir.
Proof.
  intros Hq. destruct e as [? ? ?|p n|p]; cbn; [done| |].
  - destruct (f p) eqn:Ep; [done|]. rewrite put_other; [done|]. intros ->. congruence.
  - destruct (f p) as [[| |t]|] eqn:Ep; try done; rewrite put_other; try done; intros ->; congruence.
Qed.

Lemma grow_real f e p : real f p -> real (grow f e) p.
Proof. intros [Hc Hd]. split; [done|]. intros q Hn Hp. by apply grow_dirs, Hd. Qed.

Section Runs.
  Variable C : Crypto.
  Variable Y : Yaml.
  Variable version : bytes.
  Variable rcgen : gencert -> bool.
  Notation hrun := (hrun C Y version rcgen).
  Notation hstep := (hstep C Y version rcgen).
  Notation exec_at := (exec_at C Y version rcgen).
  Notation exec p := (exec C Y version rcgen (path_of p)).
  Notation execs p := (execs C Y version rcgen (path_of p)).

  Lemma exec_at_tree h cwd path c : ho_tree (exec_at h cwd path c).1 = ho_tree h.
  Proof. unfold Root.exec_at. destruct (canonicalize _ _ _); [|done]. by destruct (Commands.exec _ _ _ _ _ _ _). Qed.

  Lemma hstep_tree h e : ho_tree (hstep h e) = grow (ho_tree h) e.
  Proof. destruct e; cbn [Root.hstep ho_tree]; [by rewrite exec_at_tree|done|done]. Qed.

  Lemma hrun_real h es p : real (ho_tree h) p -> real (ho_tree (hrun h es)) p.
  Proof.
    revert h. induction es as [|e es IH]; intros h Hr; [done|]. cbn. apply IH. rewrite hstep_tree. by apply grow_real.
  Qed.
End Runs.

(** ** C75 *)

(** A command acts on the directory it was given a name of, and on nothing else. *)
Theorem C75_acts_there :
  forall C Y version rcgen h cwd path p c,
    names (ho_tree h) cwd path p ->
    let '(h', out) := exec_at C Y version rcgen h cwd path c in
    (ho_keys h' p, out) = exec C Y version rcgen (path_of p) (ho_keys h p) c
    /\ ho_tree h' = ho_tree h
    /\ forall q, q <> p -> ho_keys h' q = ho_keys h q.
Proof.
  intros C Y version rcgen h cwd path p c H. unfold exec_at. rewrite (proj2 (canonical_iff _ _ _ _) H).
  destruct (exec C Y version rcgen (path_of p) (ho_keys h p) c) as [k out]. cbn [ho_keys ho_tree].
  rewrite put_same. split; [done|]. split; [done|]. intros q Hq. by apply put_other.
Qed.
Print Assumptions C75_acts_there.

(** What is in a directory after any commands on any number of directories, given by any names in any places while links, files
    and directories are made and removed, is what the commands given to it did, one after the other. *)
Theorem C75_apart :
  forall C Y version rcgen es h p, exists cs,
    given_to p (ho_tree h) es cs
    /\ forall cs', given_to p (ho_tree h) es cs' ->
         ho_keys (hrun C Y version rcgen h es) p = execs C Y version rcgen (path_of p) (ho_keys h p) cs'.
Proof.
  intros C Y version rcgen es. induction es as [|e es IH]; intros h p.
  { exists []. split; [constructor|]. intros cs' H. by inversion H. }
  destruct (IH (hstep C Y version rcgen h e) p) as (cs & Hcs & Hk). rewrite hstep_tree in Hcs, Hk.
  destruct e as [cwd path c|q n|q].
  - cbn [grow] in Hcs, Hk. destruct (canonicalize (ho_tree h) cwd path) as [q|] eqn:Eq.
    + pose proof (proj1 (canonical_iff _ _ _ _) Eq) as Hq. destruct (decide (q = p)) as [->|Hne].
      * exists (c :: cs). split; [by constructor|]. intros cs' H. inversion H as [|? ? ? ? ? cs1 Hn H1|? ? ? ? ? ? Hn H1|? ? ? ? Hn H1]; subst.
        -- cbn. unfold hrun in Hk. cbn [hstep] in Hk. rewrite (Hk _ H1).
           pose proof (C75_acts_there C Y version rcgen h cwd path p c Hq) as Ha.
           destruct (exec_at C Y version rcgen h cwd path c) as [h' out]. destruct Ha as [Ha _]. cbn [fst].
           by rewrite <- Ha.
        -- done.
        -- by destruct (Hn cwd path c).
      * exists cs. split; [apply to_other; [|done]; intros Hp; by apply Hne, (names_one _ _ _ _ _ Hq Hp)|].
        intros cs' H. inversion H as [|? ? ? ? ? cs1 Hn H1|? ? ? ? ? ? Hn H1|? ? ? ? Hn H1]; subst.
        -- by destruct (Hne (names_one _ _ _ _ _ Hq Hn)).
        -- cbn. unfold hrun in Hk. cbn [hstep] in Hk. rewrite (Hk _ H1).
           pose proof (C75_acts_there C Y version rcgen h cwd path q c Hq) as Ha.
           destruct (exec_at C Y version rcgen h cwd path c) as [h' out]. destruct Ha as (_ & _ & Ha). cbn [fst].
           by rewrite Ha.
        -- by destruct (Hn cwd path c).
    + exists cs. split; [apply to_other; [|done]; intros Hp%canonical_iff; congruence|].
      intros cs' H. inversion H as [|? ? ? ? ? cs1 Hn H1|? ? ? ? ? ? Hn H1|? ? ? ? Hn H1]; subst.
      * apply canonical_iff in Hn. congruence.
      * cbn. unfold hrun in Hk. cbn [hstep] in Hk. rewrite (Hk _ H1). unfold exec_at. by rewrite Eq.
      * by destruct (Hn cwd path c).
  - exists cs. split; [by constructor|]. intros cs' H. inversion H; subst. by apply Hk.
  - exists cs. split; [by constructor|]. intros cs' H. inversion H; subst. by apply Hk.
Qed.
Print Assumptions C75_apart.

(** Init is given some name of a directory.  Whatever is done afterwards, anywhere: under every name the directory has by
    then, [url] says what init said, another init is refused, and a server with the same passphrase continues the keystore. *)
Theorem C75_same_keystore :
  forall C, CryptoOk C -> forall Y, YamlOk Y ->
  forall version rcgen f es cwd path p stdin ops mem r h1 u es' cwd' path',
    let pass := command_passphrase stdin in
    let h := hrun C Y version rcgen (Host f (fun _ => nothing)) es in
    let h2 := hrun C Y version rcgen h1 es' in
    place p -> draws_ok r -> (ops < 2 ^ 32)%N -> (mem < 2 ^ 32)%N ->
    names (ho_tree h) cwd path p ->
    exec_at C Y version rcgen h cwd path (CInit stdin ops mem r) = (h1, Said u) ->
    names (ho_tree h2) cwd' path' p ->
    (exec_at C Y version rcgen h2 cwd' path' CUrl).2 = Said u
    /\ (forall stdin' ops' mem' r', exists e,
          (exec_at C Y version rcgen h2 cwd' path' (CInit stdin' ops' mem' r')).2 = Refused e)
    /\ exists g, forall cs, given_to p (ho_tree h1) es' cs -> only C Y (ho_keys h1 p) pass cs ->
         forall stdin' fb evs, command_passphrase stdin' = pass ->
           (exec_at C Y version rcgen h2 cwd' path' (CServer stdin' fb evs)).2 = Said u
           /\ running C Y version rcgen (ho_keys h2 p) stdin' fb evs
              = Some (g, run sql_store g (lived C pass cs ++ EvRestart :: evs)).
Proof.
  intros C HC Y HY version rcgen f es cwd path p stdin ops mem r h1 u es' cwd' path' pass h h2 Hp Hr Ho Hm Hn E Hn'.
  destruct (C75_apart C Y version rcgen es (Host f (fun _ => nothing)) p) as (before & Hb & Hkb).
  specialize (Hkb _ Hb). fold h in Hkb. cbn [ho_keys] in Hkb.
  destruct (C75_apart C Y version rcgen es' h1 p) as (after & Ha & Hka).
  pose proof (C75_acts_there C Y version rcgen h cwd path p (CInit stdin ops mem r) Hn) as H1. rewrite E in H1.
  destruct H1 as [H1 _]. rewrite Hkb in H1. symmetry in H1.
  assert (forall c, (exec_at C Y version rcgen h2 cwd' path' c).2 = (exec C Y version rcgen (path_of p) (ho_keys h2 p) c).2) as Hout.
  { intros c. pose proof (C75_acts_there C Y version rcgen h2 cwd' path' p c Hn') as H2.
    destruct (exec_at C Y version rcgen h2 cwd' path' c). destruct H2 as [H2 _]. by rewrite <- H2. }
  pose proof (Hka _ Ha) as Hk2. fold h2 in Hk2. split; [|split].
  - rewrite Hout, Hk2.
    pose proof (C69_url C HC Y HY version rcgen p before stdin ops mem r _ u Hp Hr Ho Hm H1 after) as H. cbn zeta in H.
    change (abs p) with (path_of p) in H. by rewrite H.
  - intros stdin' ops' mem' r'. destruct (C69_made_once C Y version rcgen (path_of p) before stdin ops mem r _ u H1 after) as [_ H].
    destruct (H stdin' ops' mem' r') as [e He]. exists e. rewrite Hout, Hk2. by rewrite He.
  - destruct (C69_one_keystore C HC Y HY version rcgen p before stdin ops mem r _ u Hp Hr Ho Hm H1) as (g & _ & _ & _ & _ & _ & _ & Hg).
    exists g. intros cs Hcs Hon stdin' fb evs Hs. destruct (Hg cs Hon) as [_ H]. destruct (H stdin' fb evs Hs) as [H2 H3].
    change (abs p) with (path_of p) in H2, H3. rewrite Hout. pose proof (Hka _ Hcs) as Hk3. fold h2 in Hk3. rewrite Hk3. by split.
Qed.
Print Assumptions C75_same_keystore.

(** The path that goes into configuration and URL is that of the directory without links: it is the same
    for all names, it names the directory in every place, and it goes on doing so. *)
Theorem C75_address :
  forall C Y version rcgen h es cwd path p,
    real (ho_tree h) cwd -> names (ho_tree h) cwd path p ->
    let f := ho_tree (hrun C Y version rcgen h es) in
    real f p /\ forall cwd', names f cwd' (path_of p) p.
Proof.
  intros C Y version rcgen h es cwd path p Hr Hn f.
  assert (real f p) as H by (apply hrun_real; by eapply names_real). split; [done|]. intros cwd'. by apply real_names.
Qed.
Print Assumptions C75_address.

(** Init makes a keystore in every directory that has none, whose path is text. *)
Theorem C75_init_works :
  forall C, CryptoOk C ->
  forall Y version rcgen h cwd path p stdin ops mem r pre,
    names (ho_tree h) cwd path p -> utf8 (path_of p) = true -> kd_file (ho_keys h p) = None -> draws_ok r ->
    argon2id C (blake2b C 64 (command_passphrase stdin)) (r_salt r) ops mem = Ok pre ->
    exists h' u, exec_at C Y version rcgen h cwd path (CInit stdin ops mem r) = (h', Said u).
Proof.
  intros C HC Y version rcgen h cwd path p stdin ops mem r pre Hn Hu Hk Hr Hp. unfold exec_at.
  rewrite (proj2 (canonical_iff _ _ _ _) Hn). cbn [exec]. rewrite Hk.
  assert (exists d, path_of p = slash :: d) as [d Ed] by (destruct p; by eexists). rewrite Ed in Hu |- *.
  destruct (C25_generates C HC (slash :: d) d _ ops mem r pre Hr Hu Hp) as [cfg ->]. by eexists _, _.
Qed.
Print Assumptions C75_init_works.

(** False of the code: that init makes the directory when it is missing.  The directory is looked for before, so
    every command is refused, and the place remains as it was. *)
Theorem C75_missing_refuted :
  forall C Y version rcgen h cwd path c,
    (forall p, ~ names (ho_tree h) cwd path p) ->
    exists e, exec_at C Y version rcgen h cwd path c = (h, Refused e).
Proof.
  intros C Y version rcgen h cwd path c H. unfold exec_at.
  destruct (canonicalize (ho_tree h) cwd path) as [p|] eqn:E; [by apply canonical_iff, H in E|]. by eexists.
Qed.
Print Assumptions C75_missing_refuted.

(** Links to the directory of [PropertiesCommands], from the root directory and from [/home]; a link to itself; a link to
    nothing. *)
Definition ex_tree : tree := fun p =>
  if decide (p ∈ [[str "home"]; [str "home"; str "me"]; ex_comps]) then Some NDir
  else if decide (p = [str "k"]) then Some (NLink (str "home/./me/../me//keys/"))
  else if decide (p = [str "home"; str "up"]) then Some (NLink (str "/k"))
  else if decide (p = [str "loop"]) then Some (NLink (str "loop"))
  else if decide (p = [str "gone"]) then Some (NLink (str "nowhere"))
  else None.
Definition ex_at := exec_at toy yaml0 (str "0") (fun _ => true).
Definition ex_hrun := hrun toy yaml0 (str "0") (fun _ => true).
Definition ex_host : host := ex_hrun (Host ex_tree (fun _ => nothing)) [HCommand [str "home"] (str "up") CUrl].
Definition ex_host1 : host := (ex_at ex_host [str "home"] (str "up") ex_init).1.
Definition ex_between : list hevent :=
  [HUnlink [str "k"]; HMake [str "other"] NDir; HMake [str "other"; str "z"] (NLink (str "../home/me/keys"));
   HCommand [] (str "other") ex_init; HCommand [] (str "gone") ex_init; HCommand [] (str "other/z") CUrl].
Definition ex_host2 : host := ex_hrun ex_host1 ex_between.

Example C75_ex :
  place ex_comps
  /\ names (ho_tree ex_host) [str "home"] (str "up") ex_comps
  /\ ex_said (ex_at ex_host [str "home"] (str "up") ex_init).2 = true
  /\ (forall p, ~ names (ho_tree ex_host2) [str "home"] (str "up") p)
  /\ names (ho_tree ex_host2) [str "other"] (str "./z/") ex_comps
  /\ real (ho_tree ex_host) [str "home"]
  /\ given_to ex_comps (ho_tree ex_host1) ex_between [CUrl].
Proof.
  split; [|split; [|split; [|split; [|split; [|split]]]]].
  - split; [by vm_compute|]. unfold ex_comps. repeat constructor; try done; by apply (bool_decide_unpack _).
  - apply canonical_iff. by vm_compute.
  - by vm_compute.
  - intros p Hp%canonical_iff. by vm_compute in Hp.
  - apply canonical_iff. by vm_compute.
  - split; [apply Forall_singleton; repeat split; try done; by apply (bool_decide_unpack _)|].
    intros q Hq [k Hk]. destruct q as [|x q]; [done|]. injection Hk as <- Hk. destruct q; [|done]. by vm_compute.
  - unfold ex_between.
    do 3 (apply to_tree; [done|]). apply to_other; [intros H%canonical_iff; by vm_compute in H|].
    apply to_other; [intros H%canonical_iff; by vm_compute in H|].
    apply to_this; [apply canonical_iff; by vm_compute|]. constructor.
Qed.

(** What is missing, what is a link to nothing or to itself, and the empty name lead nowhere; the passphrase derives a key. *)
Example C75_missing_ex :
  (forall path p, path ∈ [[]; str "/new"; str "/home/me/keys/new"; str "/gone"; str "/loop"; str "/home/me/keys/../x/.."] ->
     ~ names ex_tree [] path p)
  /\ (match ex_init with CInit stdin ops mem r => is_ok (argon2id toy (blake2b toy 64 (command_passphrase stdin)) (r_salt r) ops mem) | _ => false end) = true.
Proof.
  split; [|by vm_compute]. intros path p Hin Hp%canonical_iff.
  repeat (apply elem_of_cons in Hin as [->|Hin]; [by vm_compute in Hp|]). by apply elem_of_nil in Hin.
Qed.
