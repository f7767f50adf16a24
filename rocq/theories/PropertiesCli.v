(** * PropertiesCli: the command line and the key statements (C47, C48, C54) *)

From Verif Require Import Base Utf8 Base64 Base64Proofs Crypto Toy Types Codec Secret Store Server System
  SeedBundle SeedBundleProofs Cli Demo PropertiesBundle.
From Coq Require Import ZifyBool ZifyNat ZifyN.

(** ** C47: piped passphrases are taken as typed *)

Definition LF : bytes := [x0a].
Definition CRLF : bytes := [x0d; x0a].
Definition ends_with (p e : bytes) : Prop := exists r, p = r ++ e.

(** What [init] and [server] take: standard input without its final line ending. *)
Theorem C47_as_typed :
  (forall p, ~ ends_with p LF -> command_passphrase p = p)
  /\ (forall p, ~ ends_with p [x0d] -> command_passphrase (p ++ LF) = p)
  /\ (forall p, command_passphrase (p ++ CRLF) = p).
Proof.
  unfold command_passphrase, read_piped, ends_with, LF, CRLF. split; [|split].
  - intros p H. destruct (rev p) as [|b r] eqn:E; [done|].
    assert (b <> x0a) as Hb.
    { intros ->. apply H. exists (rev r). rewrite <- (rev_involutive p), E. done. }
    by destruct b.
  - intros p H. rewrite rev_app_distr. cbn [rev app].
    destruct (rev p) as [|b r] eqn:E.
    + by rewrite <- (rev_involutive p), E.
    + assert (b <> x0d) as Hb.
      { intros ->. apply H. exists (rev r). rewrite <- (rev_involutive p), E. done. }
      assert (p = rev (b :: r)) as -> by (by rewrite <- (rev_involutive p), E). by destruct b.
  - intros p. rewrite rev_app_distr. cbn. apply rev_involutive.
Qed.
Print Assumptions C47_as_typed.

Example C47_as_typed_ex :
  command_passphrase (str " my pass " ++ [x0a]) = str " my pass "
  /\ command_passphrase (str "p" ++ [x0a; x0a]) = str "p" ++ [x0a].
Proof. done. Qed.

(** A passphrase as the import command expects it: text, not empty, on one line, without white
    space around it. *)
Definition tidy (p : bytes) : Prop := p <> [] /\ x0a ∉ p /\ core_of p p.

Lemma tidy_chars p : tidy p -> exists cs, chars p = Some cs /\ trim cs = cs /\ [x0a] ∉ cs
  /\ concat cs = p.
Proof.
  intros (_ & Hl & Hu & _ & Hc). apply utf8_chars in Hu as [cs E]. exists cs.
  pose proof (chars_concat _ _ E) as Ec. split; [done|].
  destruct (trim_split cs) as (w1 & w2 & E1 & W1 & W2).
  assert (Forall (fun c => chars c = Some [c]) cs) as HF.
  { eapply Forall_impl; [by apply (chars_single p)|]. by intros c [? _]. }
  assert (forall c, c ∈ cs -> white c = true -> c ∈ white_chars) as Hw.
  { intros c Hin Hc'. apply white_char_white. rewrite Forall_forall in HF. auto. }
  assert (w1 = []) as ->.
  { destruct w1 as [|c w1]; [done|]. exfalso. cbn [forallb] in W1.
    apply andb_true_iff in W1 as [W1 _].
    destruct (Hc c (concat (w1 ++ trim cs ++ w2))) as [H _].
    - apply Hw; [|done]. rewrite E1. cbn. constructor.
    - apply utf8_chars. eexists. apply chars_of. rewrite E1 in HF. by apply Forall_inv_tail in HF.
    - apply H. rewrite <- Ec. rewrite E1 at 1. done. }
  assert (w2 = []) as ->.
  { destruct w2 as [|c w2] using rev_ind; [done|]. exfalso. rewrite forallb_app in W2.
    apply andb_true_iff in W2 as [_ W2]. cbn in W2. rewrite andb_true_r in W2.
    destruct (Hc c (concat (trim cs ++ w2))) as [_ H].
    - apply Hw; [|done]. rewrite E1. cbn [app]. apply elem_of_app. right. apply elem_of_app. right.
      constructor.
    - apply utf8_chars. eexists. apply chars_of. rewrite E1 in HF. cbn [app] in HF.
      rewrite app_assoc in HF. by apply Forall_app in HF as [? _].
    - apply H. rewrite <- Ec. rewrite E1 at 1. cbn [app]. rewrite app_assoc, concat_app. cbn.
      by rewrite app_nil_r. }
  split; [by rewrite E1 at 2; rewrite app_nil_r|]. split; [|done].
  intros Hin. apply Hl. rewrite <- Ec. clear -Hin. induction cs as [|c cs IH]; [by apply elem_of_nil in Hin|].
  cbn. apply elem_of_app. apply elem_of_cons in Hin as [<-|Hin]; [left; constructor|right; auto].
Qed.

Lemma char_last c b : chars (c ++ [b]) = Some [c ++ [b]] -> (nb b < 128)%N -> c = [].
Proof.
  intros H Hb. destruct c as [|b1 [|b2 [|b3 [|b4 [|b5 c]]]]]; [done|exfalso..]; cbn [app chars] in H;
    repeat match type of H with
    | (if ?c then _ else _) = _ => destruct c eqn:?; try discriminate H
    | obind _ _ = _ => apply obind_some in H as (? & ? & H); try discriminate H
    end; unfold cont, in_range in *; try lia.
Qed.

Lemma tidy_last p : tidy p -> ~ ends_with p LF /\ ~ ends_with p [x0d].
Proof.
  intros (_ & Hl & Hu & _ & Hc).
  assert (~ ends_with p [x0d]) as H; [|split; [|done]].
  - intros [r ->]. apply utf8_chars in Hu as [cs E].
    destruct cs as [|c cs _] using rev_ind.
    + apply chars_concat in E. by destruct r.
    + pose proof (chars_concat _ _ E) as Ec. rewrite concat_app in Ec. cbn in Ec. rewrite app_nil_r in Ec.
      pose proof (chars_single _ _ E) as HF. apply Forall_app in HF as [HF Hcc].
      inversion Hcc as [|? ? [Hc1 Hc2] _]; subst.
      assert (c = [x0d]) as ->.
      { destruct (exists_last Hc2) as (c' & b & ->). rewrite app_assoc in Ec.
        apply app_inj_tail in Ec as [_ ->].
        by rewrite (char_last c' x0d Hc1 eq_refl). }
      apply app_inj_tail_iff in Ec as [Er _].
      destruct (Hc [x0d] r) as [_ H]; [| |by apply H].
      * apply white_char_white. by vm_compute.
      * apply utf8_chars. exists cs. rewrite <- Er. apply chars_of.
        eapply Forall_impl; [exact HF|]. by intros ? [? _].
  - intros [r ->]. apply Hl. apply elem_of_app. right. constructor.
Qed.

Lemma tidy_split cs rest : [x0a] ∉ cs -> split_lines (cs ++ [x0a] :: rest) = cs :: split_lines rest.
Proof.
  induction cs as [|c cs IH]; intros H; cbn [app split_lines]; [done|].
  assert (c <> [x0a]) by (intros ->; apply H; constructor).
  assert (beq c [x0a] = false) as -> by (by apply beq_false). rewrite IH; [done|].
  intros Hin. apply H. by constructor.
Qed.

Lemma tidy_split_last cs : [x0a] ∉ cs -> split_lines cs = [cs].
Proof.
  induction cs as [|c cs IH]; intros H; cbn [split_lines]; [done|].
  assert (c <> [x0a]) by (intros ->; apply H; constructor).
  assert (beq c [x0a] = false) as -> by (by apply beq_false). rewrite IH; [done|].
  intros Hin. apply H. by constructor.
Qed.

(** Lines, each with its line ending, and what follows the last line ending. *)
Definition text (l : list (bytes * bytes)) (tail : bytes) : bytes :=
  concat (map (fun x => x.1 ++ x.2) l) ++ tail.

Lemma pass_list_text l tail :
  Forall (fun x => tidy x.1 /\ (x.2 = LF \/ x.2 = CRLF)) l -> tail = [] \/ tidy tail ->
  pass_list (text l tail) = Ok (map fst l ++ if beq tail [] then [] else [tail]).
Proof.
  intros HF Ht.
  assert (exists cs, chars (text l tail) = Some cs
    /\ List.filter (fun s => negb (beq s [])) (map (fun line => concat (trim line)) (split_lines cs))
       = map fst l ++ if beq tail [] then [] else [tail]) as (cs & E & H).
  { induction HF as [|[p e] l [Hp He] _ IH].
    - unfold text. cbn [map concat app]. destruct Ht as [->|Ht]; [exists []; split; [done|by vm_compute]|].
      destruct (tidy_chars tail Ht) as (cs & E & Htr & Hn & Ec). exists cs. split; [done|].
      rewrite tidy_split_last by done. cbn. rewrite Htr, Ec.
      assert (beq tail [] = false) as -> by (apply beq_false; by destruct Ht). done.
    - destruct IH as (cs & E & H). destruct (tidy_chars p Hp) as (ps & Ep & Htr & Hn & Ec).
      cbn [fst snd] in *.
      assert (beq p [] = false) as Hne by (apply beq_false; by destruct Hp).
      destruct He as [->| ->].
      + exists (ps ++ [x0a] :: cs). split.
        * unfold text. cbn [map concat fst snd]. rewrite <- !app_assoc.
          rewrite (chars_app _ _ _ Ep). change (LF ++ ?x) with ([x0a] ++ x).
          rewrite (chars_app [x0a] [[x0a]]) by done. unfold text in E. by rewrite E.
        * rewrite tidy_split by done. cbn [map List.filter]. rewrite Htr, Ec, Hne. cbn [negb].
          by rewrite H.
      + exists (ps ++ [x0d] :: [x0a] :: cs). split.
        * unfold text. cbn [map concat fst snd]. rewrite <- !app_assoc.
          rewrite (chars_app _ _ _ Ep). change (CRLF ++ ?x) with ([x0d; x0a] ++ x).
          rewrite (chars_app [x0d; x0a] [[x0d]; [x0a]]) by done. unfold text in E. by rewrite E.
        * assert ([x0a] ∉ ps ++ [[x0d]]) as Hn'.
          { intros [Hin|Hin]%elem_of_app; [done|]. by apply elem_of_list_singleton in Hin. }
          assert (ps ++ [x0d] :: [x0a] :: cs = (ps ++ [[x0d]]) ++ [x0a] :: cs) as ->
            by (by rewrite <- app_assoc).
          rewrite tidy_split by done. cbn [map List.filter].
          pose proof (trim_white [] ps [[x0d]] eq_refl eq_refl) as Hw. cbn [app] in Hw.
          rewrite Hw, Htr, Ec, Hne. cbn [negb]. by rewrite H. }
  unfold pass_list. rewrite E. cbn. by rewrite H.
Qed.

Lemma read_piped_text l tail :
  Forall (fun x => tidy x.1 /\ (x.2 = LF \/ x.2 = CRLF)) l -> tail = [] \/ tidy tail ->
  exists l' tail', read_piped (text l tail) = text l' tail'
    /\ Forall (fun x => tidy x.1 /\ (x.2 = LF \/ x.2 = CRLF)) l' /\ (tail' = [] \/ tidy tail')
    /\ map fst l' ++ (if beq tail' [] then [] else [tail'])
       = map fst l ++ (if beq tail [] then [] else [tail]).
Proof.
  intros HF Ht.
  destruct C47_as_typed as (H1 & H2 & H3). unfold command_passphrase in *.
  assert (forall l p, tidy p -> ~ ends_with (text l p) LF /\ ~ ends_with (text l p) [x0d]) as Hl.
  { intros m p Hp. destruct (tidy_last p Hp) as [L1 L2]. destruct Hp as [Hp _].
    destruct (exists_last Hp) as (p' & b & ->). unfold text. rewrite app_assoc.
    split; intros [r E]; apply app_inj_tail in E as [_ ->]; [apply L1|apply L2]; by exists p'. }
  destruct Ht as [->|Ht].
  - destruct l as [|[p e] l _] using rev_ind.
    + exists [], []. split; [done|]. by auto.
    + apply Forall_app in HF as [HF Hx]. apply Forall_inv in Hx as [Hp He]. cbn [fst snd] in *.
      exists l, p. split; [|split; [done|split; [by right|]]].
      * unfold text. rewrite map_app, concat_app, app_nil_r. cbn [map concat fst snd].
        rewrite app_nil_r. destruct (Hl l p Hp) as [L1 L2]. unfold text in L1, L2.
        rewrite app_assoc. destruct He as [->| ->]; [by apply H2|apply H3].
      * assert (beq p [] = false) as -> by (apply beq_false; by destruct Hp).
        rewrite map_app, app_nil_r. done.
  - exists l, tail. split; [|split; [done|split; [by right|done]]].
    apply H1. by apply Hl.
Qed.

(** Given tidy passphrases on separate lines, with either kind of line ending, with or without
    one at the end, the import command takes exactly these, and refuses any other number.
    Missing for the full property: passphrases with white space around them. *)
Theorem C47_import_lines_partial :
  forall deep l tail,
    Forall (fun x => tidy x.1 /\ (x.2 = LF \/ x.2 = CRLF)) l -> tail = [] \/ tidy tail ->
    let given := map fst l ++ (if beq tail [] then [] else [tail]) in
    match import_passphrases deep (text l tail) with
    | Ok (store, bundle, None) => deep = false /\ given = [store; bundle]
    | Ok (store, bundle, Some lock) => deep = true /\ given = [store; bundle; lock]
    | Err _ => length given <> if deep then 3 else 2
    end.
Proof.
  intros deep l tail HF Ht given. unfold import_passphrases.
  destruct (read_piped_text l tail HF Ht) as (l' & tail' & -> & HF' & Ht' & E).
  rewrite (pass_list_text l' tail' HF' Ht'), E. fold given. cbn [rbind].
  destruct deep; destruct given as [|a [|b [|c [|d g]]]]; cbn; try done; lia.
Qed.
Print Assumptions C47_import_lines_partial.

(** A line and its text without the white space around it. *)
Lemma line_chars x c : x0a ∉ x -> core_of x c -> exists cs, chars x = Some cs /\ [x0a] ∉ cs /\ concat (trim cs) = c.
Proof.
  intros Hn Hc. apply core_trimmed in Hc. unfold trimmed in Hc. destruct (chars x) as [cs|] eqn:E; [|done].
  cbn in Hc. injection Hc as Hc. exists cs. split; [done|]. split; [|done]. intros Hin. apply Hn.
  apply chars_concat in E as <-. clear -Hin. induction cs as [|b cs IH]; [by apply elem_of_nil in Hin|].
  cbn. apply elem_of_app. apply elem_of_cons in Hin as [<-|Hin]; [left; constructor|right; auto].
Qed.

(** A line of the text, as it is and how it ends, and the line without the white space around it. *)
Definition line_of (x : bytes * bytes) (c : bytes) : Prop :=
  x0a ∉ x.1 /\ core_of x.1 c /\ ((x.2 = LF /\ ~ ends_with x.1 [x0d]) \/ x.2 = CRLF).

Lemma pass_list_lines l tail cores ct : Forall2 line_of l cores -> x0a ∉ tail -> core_of tail ct ->
  pass_list (text l tail) = Ok (List.filter (fun s => negb (beq s [])) (cores ++ [ct])).
Proof.
  intros HF Hn Ht.
  assert (exists cs, chars (text l tail) = Some cs
    /\ map (fun line => concat (trim line)) (split_lines cs) = cores ++ [ct]) as (cs & E & H).
  2:{ unfold pass_list. rewrite E. cbn [ok_of_opt rbind]. by rewrite H. }
  induction HF as [|[x e] c l cores (Hx & Hc & He) _ IH].
  - destruct (line_chars tail ct Hn Ht) as (cs & E & N & T). exists cs. split; [done|].
    rewrite tidy_split_last by done. cbn. by rewrite T.
  - destruct IH as (cs & E & H). cbn [fst snd] in *. destruct (line_chars x c Hx Hc) as (ps & Ep & Np & Tp).
    unfold text in *. cbn [map concat fst snd]. rewrite <- !app_assoc. destruct He as [[-> _]| ->].
    + exists (ps ++ [x0a] :: cs). split.
      * rewrite (chars_app _ _ _ Ep). change (LF ++ ?x) with ([x0a] ++ x).
        rewrite (chars_app [x0a] [[x0a]]) by done. by rewrite E.
      * rewrite tidy_split by done. cbn [map]. by rewrite Tp, H.
    + exists ((ps ++ [[x0d]]) ++ [x0a] :: cs). split.
      * rewrite (chars_app _ _ _ Ep). change (CRLF ++ ?x) with ([x0d; x0a] ++ x).
        rewrite (chars_app [x0d; x0a] [[x0d]; [x0a]]) by done. rewrite E. cbn. by rewrite <- app_assoc.
      * rewrite tidy_split.
        2:{ intros [Hin|Hin]%elem_of_app; [done|]. apply elem_of_list_singleton in Hin. done. }
        cbn [map app]. rewrite H, <- Tp. f_equal. f_equal. apply (trim_white [] ps [[x0d]]); done.
Qed.

Lemma read_piped_lines l tail cores ct : Forall2 line_of l cores -> x0a ∉ tail -> core_of tail ct ->
  exists l' tail' cores' ct', read_piped (text l tail) = text l' tail'
    /\ Forall2 line_of l' cores' /\ x0a ∉ tail' /\ core_of tail' ct'
    /\ List.filter (fun s => negb (beq s [])) (cores' ++ [ct']) = List.filter (fun s => negb (beq s [])) (cores ++ [ct]).
Proof.
  intros HF Hn Ht. destruct C47_as_typed as (H1 & H2 & H3). unfold command_passphrase in *.
  destruct tail as [|b tail _] using rev_ind.
  2:{ exists l, (tail ++ [b]), cores, ct. split; [|done]. apply H1. unfold text. rewrite app_assoc. intros [r E].
      apply app_inj_tail in E as [_ ->]. apply Hn. apply elem_of_app. right. constructor. }
  assert (ct = []) as ->.
  { apply core_trimmed in Ht. cbn in Ht. by injection Ht. }
  destruct l as [|[x e] l _] using rev_ind.
  { inversion HF; subst. exists [], [], [], []. split; [done|]. done. }
  apply Forall2_app_inv_l in HF as (cores1 & cores2 & HF & Hx & ->). inversion Hx as [|? c ? ? (X1 & X2 & X3) Hnil]; subst.
  inversion Hnil; subst. cbn [fst snd] in *.
  exists l, x, cores1, c. split.
  - unfold text. rewrite map_app, concat_app. cbn [map concat fst snd]. rewrite !app_nil_r, app_assoc.
    destruct X3 as [[-> X3]| ->]; [|apply H3]. apply H2. intros [r E].
    destruct x as [|b x _] using rev_ind.
    + rewrite app_nil_r in E. destruct l as [|[y f] l _] using rev_ind; [by destruct r|].
      apply Forall2_app_inv_l in HF as (? & ? & _ & Hy & _). inversion Hy as [|? ? ? ? (_ & _ & Y) _]; subst. cbn [fst snd] in Y.
      rewrite map_app, concat_app in E. cbn [map concat fst snd] in E. rewrite app_nil_r in E.
      destruct Y as [[-> _]| ->]; unfold LF, CRLF in E.
      * rewrite app_assoc in E. apply app_inj_tail in E as [_ E]. done.
      * change [x0d; x0a] with ([x0d] ++ [x0a]) in E. rewrite !app_assoc in E. apply app_inj_tail in E as [_ E]. done.
    + rewrite app_assoc in E. apply app_inj_tail in E as [_ ->]. apply X3. by exists x.
  - split; [done|]. split; [done|]. split; [done|]. rewrite <- app_assoc, !List.filter_app. cbn [app List.filter].
    change (negb (beq [] [])) with false. cbn iota. by destruct (negb (beq c [])).
Qed.

(** Exactly: of any text the import command takes the lines without the white space around them and
    without those of which nothing remains; it refuses any other number of them, and what is not text. *)
Theorem C47_import_exactly :
  forall deep,
  (forall l tail cores ct, Forall2 line_of l cores -> x0a ∉ tail -> core_of tail ct ->
    let given := List.filter (fun s => negb (beq s [])) (cores ++ [ct]) in
    match import_passphrases deep (text l tail) with
    | Ok (store, bundle, None) => deep = false /\ given = [store; bundle]
    | Ok (store, bundle, Some lock) => deep = true /\ given = [store; bundle; lock]
    | Err _ => length given <> if deep then 3 else 2
    end)
  /\ (forall raw, utf8 (command_passphrase raw) = false -> is_ok (import_passphrases deep raw) = false).
Proof.
  intros deep. split.
  - intros l tail cores ct HF Hn Ht given. unfold import_passphrases.
    destruct (read_piped_lines l tail cores ct HF Hn Ht) as (l' & tail' & cores' & ct' & -> & HF' & Hn' & Ht' & E).
    rewrite (pass_list_lines l' tail' cores' ct' HF' Hn' Ht'), E. fold given. cbn [rbind].
    destruct deep; destruct given as [|a [|b [|c [|d g]]]]; cbn; try done; lia.
  - intros raw H. unfold import_passphrases, pass_list. unfold command_passphrase in H.
    destruct (chars (read_piped raw)) as [cs|] eqn:E; [|done].
    assert (utf8 (read_piped raw) = true) by (apply utf8_chars; by eexists). congruence.
Qed.
Print Assumptions C47_import_exactly.

Example C47_import_exactly_ex :
  Forall2 line_of [(str " store pass ", LF); ([], CRLF); (str "	bundle", CRLF)] [str "store pass"; []; str "bundle"]
  /\ x0a ∉ str "  " /\ core_of (str "  ") []
  /\ import_passphrases false (text [(str " store pass ", LF); ([], CRLF); (str "	bundle", CRLF)] (str "  "))
     = Ok (str "store pass", str "bundle", None)
  /\ utf8 (command_passphrase [xff]) = false.
Proof.
  assert (forall p c, trimmed p = Ok c -> core_of p c) as H by (intros p c; apply trimmed_core).
  assert (forall p : bytes, bool_decide (x0a ∉ p) = true -> x0a ∉ p) as H2 by (intros p E; by apply bool_decide_eq_true in E).
  split.
  { constructor; [|constructor; [|constructor; [|constructor]]].
    - split; [by apply H2|]. split; [by apply H|]. left. split; [done|]. intros [r E].
      apply (f_equal (fun l => last l)) in E. rewrite last_snoc in E. done.
    - split; [by apply H2|]. split; [by apply H|]. by right.
    - split; [by apply H2|]. split; [by apply H|]. by right. }
  split; [by apply H2|]. split; [by apply H|]. split; by vm_compute.
Qed.

(** False of passphrases with white space around them: the import command takes them without
    it, where [init] and [server] take them with it, so the keystore passphrase given in the
    same way to both is not the same. *)
Theorem C47_import_trims_refuted :
  forall w p v q,
    tidy p -> tidy q -> blank w -> blank v -> x0a ∉ w -> x0a ∉ v -> ~ ends_with v [x0d] ->
    w ++ v <> [] ->
    import_passphrases false ((w ++ p ++ v) ++ LF ++ q) = Ok (p, q, None)
    /\ command_passphrase ((w ++ p ++ v) ++ LF) <> p.
Proof.
  intros w p v q Hp Hq Hw Hv Lw Lv Hcr Hne. split.
  - unfold import_passphrases.
    destruct C47_as_typed as (H1 & _). unfold command_passphrase in H1. rewrite H1.
    2: { destruct (tidy_last q Hq) as [L1 _]. destruct Hq as [Hq _]. intros [r E].
         destruct (exists_last Hq) as (q' & b & ->). rewrite !app_assoc in E.
         apply app_inj_tail in E as [_ ->]. apply L1. by exists q'. }
    destruct (tidy_chars p Hp) as (ps & Ep & Tp & Np & Cp).
    destruct (tidy_chars q Hq) as (qs & Eq & Tq & Nq & Cq).
    apply blank_chars in Hw as (ws & Ew & Ww). apply blank_chars in Hv as (vs & Ev & Wv).
    assert (forall a (l : list bytes), chars a = Some l -> x0a ∉ a -> [x0a] ∉ l) as Hn.
    { intros a l E Hx Hin. apply Hx. apply chars_concat in E as <-.
      clear -Hin. induction l as [|c l IH]; [by apply elem_of_nil in Hin|].
      cbn. apply elem_of_app. apply elem_of_cons in Hin as [<-|Hin]; [left; constructor|right; auto]. }
    unfold pass_list. rewrite <- !app_assoc.
    rewrite (chars_app _ _ _ Ew), (chars_app _ _ _ Ep), (chars_app _ _ _ Ev).
    rewrite (chars_app LF [[x0a]]) by done. rewrite Eq. cbn [obind ok_of_opt rbind].
    assert (ws ++ ps ++ vs ++ [[x0a]] ++ qs = (ws ++ ps ++ vs) ++ [x0a] :: qs) as ->
      by (by rewrite <- !app_assoc).
    rewrite tidy_split.
    2: { intros [H|[H|H]%elem_of_app]%elem_of_app; [by apply (Hn _ _ Ew Lw)|done|by apply (Hn _ _ Ev Lv)]. }
    rewrite tidy_split_last by done. cbn [map List.filter].
    rewrite (trim_white ws ps vs Ww Wv), Tp, Tq, Cp, Cq.
    assert (beq p [] = false) as -> by (apply beq_false; by destruct Hp).
    assert (beq q [] = false) as -> by (apply beq_false; by destruct Hq). done.
  - destruct C47_as_typed as (_ & H2 & _). rewrite H2.
    + intros E. apply (f_equal length) in E. rewrite !app_length in E. apply Hne.
      destruct w, v; try done; cbn in E; lia.
    + intros [r E]. destruct (exists_last (proj1 Hp)) as (p' & b & ->).
      destruct v as [|b' v _] using rev_ind.
      * rewrite app_nil_r, app_assoc in E. apply app_inj_tail in E as [_ ->].
        apply (proj2 (tidy_last _ Hp)). by exists p'.
      * rewrite !app_assoc in E. apply app_inj_tail in E as [_ ->]. apply Hcr. by exists v.
Qed.
Print Assumptions C47_import_trims_refuted.

Lemma tidy_ascii p : p <> [] -> utf8 p = true -> x0a ∉ p ->
  trimmed p = Ok p -> tidy p.
Proof. intros H1 H2 H3 H4. split; [done|]. split; [done|]. by apply trimmed_core. Qed.

Example C47_ex :
  tidy (str "store pass") /\ tidy (str "bundle") /\ blank (str " ") /\ ~ ends_with (str " ") [x0d]
  /\ import_passphrases false (text [(str "store pass", CRLF)] (str "bundle"))
     = Ok (str "store pass", str "bundle", None)
  /\ import_passphrases false (str " store pass" ++ LF ++ str "bundle")
     = Ok (str "store pass", str "bundle", None)
  /\ is_ok (import_passphrases false (str "a" ++ LF ++ str "b" ++ LF ++ str "c")) = false
  /\ import_passphrases true (str "a" ++ LF ++ str "b" ++ LF ++ str "c" ++ LF)
     = Ok (str "a", str "b", Some (str "c")).
Proof.
  assert (forall p, p <> [] -> utf8 p = true -> bool_decide (x0a ∉ p) = true -> trimmed p = Ok p ->
    tidy p) as H.
  { intros p H1 H2 H3 H4. apply tidy_ascii; try done. by apply bool_decide_eq_true in H3. }
  split; [apply H; [done|by vm_compute..]|]. split; [apply H; [done|by vm_compute..]|].
  split; [exists [[x20]]; split; [done|]; repeat constructor; by apply (bool_decide_unpack _)|].
  split; [intros [[|? r] E]; [done|injection E as _ E; by destruct r]|].
  split; [by vm_compute|]. split; [by vm_compute|]. split; by vm_compute.
Qed.

(** ** C48: the database key is passed on exactly *)

Definition hex_digits : bytes := str "0123456789ABCDEF".
(** The value of a digit, by its place in the list. *)
Fixpoint place (l : bytes) (b : byte) : option N :=
  match l with
  | [] => None
  | c :: l => if bool_decide (b = c) then Some 0%N else option_map N.succ (place l b)
  end.
(** The bytes that pairs of digits stand for. *)
Fixpoint unhex (l : bytes) : option bytes :=
  match l with
  | [] => Some []
  | a :: b :: l =>
      match place hex_digits a, place hex_digits b, unhex l with
      | Some x, Some y, Some r => Some (bn (16 * x + y)%N :: r)
      | _, _, _ => None
      end
  | _ => None
  end.

(** A quoted raw key: double quotes around [x'...'] with digits only. *)
Definition blob (digits : bytes) : bytes := str "x'" ++ digits ++ str "'".
Definition statement (name digits : bytes) : bytes :=
  str "PRAGMA " ++ name ++ str " = """ ++ blob digits ++ str """;".

Lemma hex_digit_place n : (n < 16)%N -> place hex_digits (hex_digit n) = Some n.
Proof.
  intros H. assert (n = 0 \/ n = 1 \/ n = 2 \/ n = 3 \/ n = 4 \/ n = 5 \/ n = 6 \/ n = 7 \/ n = 8
    \/ n = 9 \/ n = 10 \/ n = 11 \/ n = 12 \/ n = 13 \/ n = 14 \/ n = 15)%N as Hn by lia.
  repeat destruct Hn as [->|Hn]; [..|rewrite Hn]; by vm_compute.
Qed.

Lemma hex_nibbles b : (nb b / 16 < 16)%N /\ (nb b mod 16 < 16)%N.
Proof. pose proof (nb_lt b). split; [apply N.div_lt_upper_bound; lia|apply N.mod_lt; lia]. Qed.

Lemma unhex_hex l : unhex (hex l) = Some l.
Proof.
  induction l as [|b l IH]; [done|]. unfold hex in *. cbn [map concat app unhex].
  destruct (hex_nibbles b). rewrite !hex_digit_place by done. rewrite IH.
  rewrite <- N.div_mod by done. by rewrite bn_nb.
Qed.

Lemma hex_length l : length (hex l) = 2 * length l.
Proof. induction l as [|b l IH]; [done|]. unfold hex in *. cbn [map concat app length] in *. lia. Qed.

Lemma place_in l b n : place l b = Some n -> b ∈ l.
Proof.
  revert n. induction l as [|c l IH]; intros n; [done|]. cbn. case_bool_decide as E.
  - intros _. subst. constructor.
  - destruct (place l b) as [m|]; [|done]. intros _. constructor. by eapply IH.
Qed.

Lemma hex_in l : Forall (fun b => b ∈ hex_digits) (hex l).
Proof.
  induction l as [|b l IH]; [constructor|]. unfold hex in *. cbn [map concat app].
  destruct (hex_nibbles b) as [H1 H2].
  constructor; [eapply place_in; by apply hex_digit_place|].
  constructor; [eapply place_in; by apply hex_digit_place|done].
Qed.

(** The statement is the fixed text around 64 digits, and the digits are the key. *)
Theorem C48_key_statement :
  forall key, length key = 32 ->
    exists stmt digits,
      key_pragma key = Ok stmt /\ stmt = statement (str "key") digits /\ length stmt = 83
      /\ Forall (fun b => b ∈ hex_digits) digits /\ length digits = 64 /\ unhex digits = Some key.
Proof.
  intros key Hk. exists (statement (str "key") (hex key)), (hex key).
  assert (length (hex key) = 64) as Hl by (rewrite hex_length, Hk; done).
  split.
  - unfold key_pragma. rewrite Hl. cbn [Nat.leb]. f_equal. unfold statement, blob.
    change (take 16 KEY_PRAGMA) with (str "PRAGMA key = ""x'").
    change (drop (16 + 64) KEY_PRAGMA) with (str "'"";"). by rewrite <- !app_assoc.
  - split; [done|]. split; [unfold statement, blob; rewrite !app_length, Hl; done|].
    split; [apply hex_in|]. split; [done|]. apply unhex_hex.
Qed.
Print Assumptions C48_key_statement.

(** More digits than the statement has room for are refused, never written over its end. *)
Theorem C48_too_long :
  forall key, 32 < length key -> exists e, key_pragma key = Err e.
Proof.
  intros key Hk. unfold key_pragma.
  assert (length (hex key) <=? 64 = false) as ->.
  { rewrite hex_length. apply Nat.leb_gt. lia. }
  by eexists.
Qed.
Print Assumptions C48_too_long.

Example C48_too_long_ex : is_ok (key_pragma (fill 33 x01)) = false /\ is_ok (key_pragma (fill 32 x01)) = true.
Proof. vm_compute. split; reflexivity. Qed.

(** A migration hands the new database the very value that the statement quotes. *)
Theorem C48_attach_same_key :
  forall key stmt, length key = 32 -> key_pragma key = Ok stmt ->
    exists digits, stmt = str "PRAGMA key = """ ++ attach_key stmt ++ str """;"
      /\ attach_key stmt = blob digits /\ unhex digits = Some key.
Proof.
  intros key stmt Hk H. destruct (C48_key_statement key Hk) as (s & d & H' & -> & _ & _ & Hl & Hu).
  rewrite H in H'. injection H' as ->. exists d.
  assert (attach_key (statement (str "key") d) = blob d) as ->; [|by split].
  unfold attach_key, statement. cbn [app].
  change (str "PRAGMA " ++ str "key" ++ str " = """ ++ ?x) with ((str "PRAGMA key = """) ++ x).
  assert (length (blob d) = 67) as Hb by (unfold blob; rewrite !app_length, Hl; done).
  rewrite drop_app_alt by done. by rewrite take_app_alt by (by rewrite Hb).
Qed.
Print Assumptions C48_attach_same_key.

(** Different keys, or salts, give different statements. *)
Theorem C48_keys_distinct :
  forall k1 k2, length k1 = 32 -> length k2 = 32 -> key_pragma k1 = key_pragma k2 -> k1 = k2.
Proof.
  intros k1 k2 H1 H2 E. destruct (C48_key_statement k1 H1) as (s1 & d1 & E1 & S1 & _ & _ & L1 & U1).
  destruct (C48_key_statement k2 H2) as (s2 & d2 & E2 & S2 & _ & _ & L2 & U2).
  rewrite E1, E2 in E. injection E as E. rewrite S1, S2 in E. unfold statement in E.
  apply app_inv_head, app_inv_head, app_inv_head, app_inv_tail in E. unfold blob in E.
  apply app_inv_head, app_inv_tail in E. rewrite E in U1. rewrite U1 in U2. by injection U2.
Qed.
Print Assumptions C48_keys_distinct.

Theorem C48_salt_statement :
  forall name salt, length salt = 16 ->
    exists digits, salt_pragma name salt = statement name digits
      /\ Forall (fun b => b ∈ hex_digits) digits /\ length digits = 32 /\ unhex digits = Some salt.
Proof.
  intros name salt Hs. exists (hex salt). split.
  - unfold salt_pragma, statement, blob. by rewrite <- !app_assoc.
  - split; [apply hex_in|]. split; [rewrite hex_length, Hs; done|apply unhex_hex].
Qed.
Print Assumptions C48_salt_statement.

Theorem C48_salts_distinct :
  forall name s1 s2, length s1 = 16 -> length s2 = 16 ->
    salt_pragma name s1 = salt_pragma name s2 -> s1 = s2.
Proof.
  intros name s1 s2 _ _ E. unfold salt_pragma in E.
  apply app_inv_head, app_inv_head, app_inv_head, app_inv_tail in E.
  pose proof (unhex_hex s1) as U1. rewrite E, unhex_hex in U1. by injection U1.
Qed.
Print Assumptions C48_salts_distinct.

Example C48_ex :
  key_pragma (fill 31 x00 ++ [xa5])
  = Ok (str "PRAGMA key = ""x'00000000000000000000000000000000000000000000000000000000000000A5'"";")
  /\ salt_pragma (str "cipher_salt") (fill 16 x0f)
     = str "PRAGMA cipher_salt = ""x'0F0F0F0F0F0F0F0F0F0F0F0F0F0F0F0F'"";".
Proof. by vm_compute. Qed.

(** ** C54: the import command stores the seed of the bundle *)

(** The call made of the keystore for a seed. *)
Definition stores (C : Crypto) (seed tag : bytes) (deep : option bytes) (exportable : bool) (d : direct) : Prop :=
  match deep with
  | None => d = DInsertSeed seed tag exportable
  | Some p => d = DInsertDeep seed tag 3 268435456 (blake2b C 64 p) exportable
  end.

(** One of the passphrases of the bundle is given: its seed is stored, unless the passphrase
    happens to open an earlier cipher too. *)
Theorem C54_import :
  forall C, CryptoOk C ->
  forall u l raw i pass lim r tag deep exportable,
    sizes_ok u l -> lock C u l = Ok raw -> l !! i = Some (AddPw pass lim, r) ->
    exists d, import_seed C tag (to_b64url raw) pass deep exportable = Ok d
      /\ (stores C (u_seed u) tag deep exportable d
          \/ exists j ks k u', (j < i)%nat /\ from_locked raw = Ok ks /\ ks !! j = Some k
               /\ unlock_pw C k pass = Ok u' /\ stores C (u_seed u') tag deep exportable d).
Proof.
  intros C CK u l raw i pass lim r tag deep exportable Hs Hl Hi.
  destruct (C41_any_secret_opens C CK u l raw [] Hs Hl) as (ks & Ek & HF). rewrite app_nil_r in Ek.
  destruct (Forall2_lookup_l _ _ _ _ _ HF Hi) as (k & Hk & Hlist & u' & Hu & Es & _).
  cbn [fst unlock_own] in Hu.
  assert (exists j kj uj, unlock_first C ks pass = Some uj /\ ks !! j = Some kj
    /\ unlock_pw C kj pass = Ok uj /\ (j = i \/ (j < i)%nat)) as (j & kj & uj & Ef & Hj & Hu' & Hij).
  { clear -Hk Hu Hlist. revert i Hk. induction ks as [|x ks IH]; intros [|i] Hk; try done; cbn in Hk.
    - injection Hk as ->. exists 0, k, u'. cbn. destruct k; try done. rewrite Hu. auto.
    - cbn [unlock_first]. destruct x as [s m o h c a|s m o q1 q2 q3 h c a|n] eqn:Ex.
      + destruct (unlock_pw C (LkPw s m o h c a) pass) as [b|] eqn:Eb.
        * exists 0, x, b. subst x. repeat split; try done. right. lia.
        * destruct (IH i Hk) as (j & kj & uj & H1 & H2 & H3 & H4). exists (S j), kj, uj.
          repeat split; try done. lia.
      + destruct (IH i Hk) as (j & kj & uj & H1 & H2 & H3 & H4). exists (S j), kj, uj.
          repeat split; try done. lia.
      + destruct (IH i Hk) as (j & kj & uj & H1 & H2 & H3 & H4). exists (S j), kj, uj.
          repeat split; try done. lia. }
  unfold import_seed. rewrite from_to_b64url. cbn [rbind]. rewrite Ek. cbn [rbind]. rewrite Ef.
  cbn [ok_of_opt rbind]. eexists. split; [reflexivity|]. destruct Hij as [->|Hij].
  - left. rewrite Hk in Hj. injection Hj as <-. rewrite Hu in Hu'. injection Hu' as <-.
    rewrite <- Es. by destruct deep.
  - right. exists j, ks, kj, uj. repeat split; try done. by destruct deep.
Qed.
Print Assumptions C54_import.

(** A passphrase that opens no cipher of the bundle imports nothing. *)
Theorem C54_wrong_passphrase :
  forall C raw ks pass tag deep exportable,
    from_locked raw = Ok ks -> (forall k, k ∈ ks -> is_ok (unlock_pw C k pass) = false) ->
    is_ok (import_seed C tag (to_b64url raw) pass deep exportable) = false.
Proof.
  intros C raw ks pass tag deep exportable Ek Hn. unfold import_seed. rewrite from_to_b64url.
  cbn [rbind]. rewrite Ek. cbn [rbind].
  assert (unlock_first C ks pass = None) as ->; [|done].
  clear Ek. induction ks as [|k ks IH]; [done|]. cbn [unlock_first].
  assert (is_ok (unlock_pw C k pass) = false) as Hk by (apply Hn; constructor).
  rewrite IH by (intros k' Hk'; apply Hn; by constructor).
  destruct k; try done. by destruct (unlock_pw C _ pass).
Qed.
Print Assumptions C54_wrong_passphrase.

Example C54_ex :
  match lock toy ex_bundle ex_adding with
  | Ok raw =>
      import_seed toy (str "t") (to_b64url raw) (str "pass") None true
        = Ok (DInsertSeed (fill 32 x07) (str "t") true)
      /\ is_ok (import_seed toy (str "t") (to_b64url raw) (str "other") None true) = false
  | Err _ => False
  end.
Proof. vm_compute. split; reflexivity. Qed.
