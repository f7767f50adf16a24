(** * CodecProofs: what is written is read back *)

From Coq Require Import ZifyBool ZifyNat ZifyN.
From Verif Require Import Base Utf8 Base64 Base64Proofs Msgpack MsgpackProofs Types Codec.

(** ** Leaves *)

Lemma sym_ascii al n : (n < 64)%N -> (nb (sym al n) < 128)%N.
Proof.
  intros H. unfold sym.
  destruct (N.ltb_spec n 26); [rewrite nb_bn; lia|].
  destruct (N.ltb_spec n 52); [rewrite nb_bn; lia|].
  destruct (N.ltb_spec n 62); [rewrite nb_bn; lia|].
  destruct (N.eqb_spec n 62), al; vm_compute; done.
Qed.

Section AsciiB64.
  Local Ltac Zify.zify_post_hook ::= Z.div_mod_to_equations.

  Lemma encode_np_ascii al l : ascii (encode_np al l).
  Proof.
    unfold ascii. induction l as [|a|a b|a b c l IH] using list_ind3.
    - constructor.
    - pose proof (nb_lt a). repeat constructor; apply sym_ascii; lia.
    - pose proof (nb_lt a). pose proof (nb_lt b). repeat constructor; apply sym_ascii; lia.
    - pose proof (nb_lt a). pose proof (nb_lt b). pose proof (nb_lt c).
      cbn [encode_np]. repeat constructor; try (apply sym_ascii; lia). done.
  Qed.

  Lemma b64_len_lt l : (N.of_nat (length l) < 3 * 2 ^ 30)%N ->
    (N.of_nat (length (to_b64url l)) < 2 ^ 32)%N.
  Proof.
    intros H. unfold to_b64url. rewrite encode_np_length.
    pose proof (Nat.mod_upper_bound (length l) 3 ltac:(lia)).
    destruct (length l mod 3) as [|[|[|]]] eqn:E; lia.
  Qed.

  Lemma b64_len_inv l : (N.of_nat (length (to_b64url l)) < 2 ^ 32)%N ->
    (N.of_nat (length l) < 3 * 2 ^ 30)%N.
  Proof.
    unfold to_b64url. rewrite encode_np_length. intros H.
    pose proof (Nat.mod_upper_bound (length l) 3 ltac:(lia)).
    destruct (length l mod 3) as [|[|[|]]] eqn:E; lia.
  Qed.
End AsciiB64.

Lemma rtext_ok s : text_ok s -> rtext (MStr s) = Some s.
Proof. intros [H _]. cbn. by rewrite H. Qed.

Lemma rbin_wbin s : rbin (wbin s) = Some s.
Proof.
  unfold rbin, wbin, rtext, obind. rewrite utf8_ascii by apply encode_np_ascii.
  by rewrite from_to_b64url.
Qed.

Lemma rsized_wbin n s : length s = n -> rsized n (wbin s) = Some s.
Proof. intros <-. unfold rsized. rewrite rbin_wbin. cbn. by rewrite Nat.eqb_refl. Qed.

Lemma rall_ok {A} (r : mval -> option A) (w : A -> mval) l :
  Forall (fun a => r (w a) = Some a) l -> rall r (map w l) = Some l.
Proof. induction 1 as [|a l Ha Hl IH]; [done|]. cbn. by rewrite Ha, IH. Qed.

Lemma rarr_warr s : rarr (warr s) = Some s.
Proof.
  unfold rarr, warr, rlist. apply rall_ok. apply Forall_forall. intros b _.
  cbn. pose proof (nb_lt b). destruct (N.ltb_spec (nb b) 256); [by rewrite bn_nb|lia].
Qed.

Lemma rnonce_warr s : length s = 24 -> rnonce (warr s) = Some s.
Proof. intros H. unfold rnonce. rewrite rarr_warr. cbn. by rewrite H. Qed.

Lemma rsecret_ok c s : secret_ok c s -> rsecret c (wsecret s) = Some s.
Proof.
  intros [H1 H2]. unfold wsecret, rsecret. rewrite !rsized_wbin by done.
  by destruct s.
Qed.

Lemma rusecret_ok s : usecret_ok s -> rusecret (wsecret s) = Some s.
Proof.
  intros [H1 H2]. unfold wsecret, rusecret. rewrite rsized_wbin, rbin_wbin by done.
  by destruct s.
Qed.

Lemma ru32_ok n : u32_ok n -> ru32 (MUInt n) = Some n.
Proof. unfold u32_ok, ru32. intros H. destruct (N.ltb_spec n (2 ^ 32)); [done|lia]. Qed.

(** ** Maps *)

Lemma rfields_wmap names l :
  rfields names (map (fun kv => (MStr (fst kv), snd kv)) l) = Some l.
Proof. induction l as [|[k v] l IH]; [done|]. cbn in *. by rewrite IH. Qed.

Lemma rstruct_wmap names l : rstruct names (wmap l) = Some l.
Proof. apply rfields_wmap. Qed.

Lemma tags_wmap l :
  tags (map (fun kv => (MStr (fst kv), snd kv)) l) = occurrences (str "type") l.
Proof.
  induction l as [|[k v] l IH]; [done|]. cbn [map tags rname fst snd occurrences].
  by rewrite IH.
Qed.

(** Decide the comparisons of literal field names. *)
Ltac lit_beq :=
  repeat match goal with
  | |- context [beq (str ?a) (str ?b)] =>
      let v := eval vm_compute in (beq (str a) (str b)) in
      replace (beq (str a) (str b)) with v by (vm_compute; reflexivity)
  end.

(** Which positions of a list of names hold the name [k]. *)
Definition mask (k : bytes) (ks : list bytes) : list bool := map (fun k' => beq k' k) ks.

Fixpoint select {A} (m : list bool) (l : list A) : list A :=
  match m, l with
  | true :: m, a :: l => a :: select m l
  | false :: m, _ :: l => select m l
  | _, _ => []
  end.

Lemma occurrences_mask k fs :
  occurrences k fs = select (mask k (map fst fs)) (map snd fs).
Proof.
  induction fs as [|[k' v] fs IH]; [done|]. cbn [occurrences map mask fst snd].
  destruct (beq k' k); cbn [select]; by rewrite IH.
Qed.

Ltac occ1 :=
  match goal with |- context [occurrences ?k ?fs] =>
    rewrite (occurrences_mask k fs);
    let ks := eval cbn [map fst app] in (map fst fs) in
    let m := eval vm_compute in (mask k ks) in
    replace (mask k (map fst fs)) with m by (vm_compute; reflexivity);
    cbn [select map snd app]
  end.

Ltac fields := unfold req, dft; repeat occ1; cbv iota; cbn [obind].

Ltac leaf :=
  repeat (first
    [ rewrite rtext_ok by done | rewrite rsized_wbin by done | rewrite rbin_wbin
    | rewrite rarr_warr | rewrite rnonce_warr by done | rewrite rsecret_ok by done
    | rewrite rusecret_ok by done | rewrite ru32_ok by done ]; cbn [obind]).

Lemma rseed_info_ok si : seed_info_ok si -> rseed_info (wseed_info si) = Some si.
Proof.
  intros [H1 H2]. destruct si as [ed x []]; unfold rseed_info, wseed_info;
    rewrite rstruct_wmap; cbn [si_ed si_x si_exportable obind] in *;
    fields; leaf; done.
Qed.

Lemma rcert_info_ok ci : cert_info_ok ci -> rcert_info (wcert_info ci) = Some ci.
Proof.
  intros (H1 & H2 & H3). destruct ci as [s d c]; unfold rcert_info, wcert_info;
    rewrite rstruct_wmap; cbn [ci_sni ci_digest ci_cert obind] in *.
  fields; leaf; done.
Qed.

Lemma rdlp_ok d : dlp_ok d -> rdlp (wdlp d) = Some d.
Proof.
  intros (H1 & H2 & H3). destruct d as [o m p]; unfold rdlp, wdlp;
    rewrite rstruct_wmap; cbn [dl_ops dl_mem dl_pass obind] in *.
  fields; leaf; done.
Qed.

Lemma rtyped_wtyped {A} decl (vs : list (bytes * (list (bytes * mval) -> option A))) t l :
  occurrences (str "type") l = [] ->
  is_Some (lookup_variant t decl) ->
  rtyped decl vs (wtyped t l) = variant t vs ((str "type", MStr t) :: l).
Proof.
  intros H [names Hn]. unfold rtyped, wtyped, wmap. rewrite tags_wmap.
  cbn [occurrences]. lit_beq. rewrite H. cbn [rvariant rname obind]. rewrite Hn.
  cbn [obind]. by rewrite rfields_wmap.
Qed.

Ltac typed :=
  rewrite rtyped_wtyped
    by first [eexists; vm_compute; reflexivity | cbn [app]; occ1; reflexivity];
  unfold variant;
  match goal with |- context [lookup_variant ?t ?l] =>
    let r := eval hnf in (lookup_variant t l) in
    replace (lookup_variant t l) with r by reflexivity
  end; cbv beta iota.

Lemma rinfo_ok e : entry_info_ok e -> rinfo (winfo e) = Some e.
Proof.
  destruct e as [t si|t si|t ci]; intros [H1 H2]; unfold rinfo, winfo;
    typed; fields; leaf; rewrite ?rseed_info_ok, ?rcert_info_ok by done; done.
Qed.

Lemma rentry_ok e : entry_ok e -> rentry (wentry e) = Some e.
Proof.
  destruct e as [t si s|t si salt o m s|t ci s]; cbn [entry_ok]; intros H; destruct_and?;
    unfold rentry, wentry;
    typed; fields; leaf; rewrite ?rseed_info_ok, ?rcert_info_ok by done;
    cbn [obind]; leaf; done.
Qed.

Lemma ropt_dlp d : dlp_ok d -> ropt rdlp (wdlp d) = Some (Some d).
Proof. intros H. unfold ropt. rewrite rdlp_ok by done. done. Qed.

Lemma ropt_secret s : secret_ok 81 s -> ropt (rsecret 81) (wsecret s) = Some (Some s).
Proof. intros H. unfold ropt. rewrite rsecret_ok by done. done. Qed.

Ltac leaf' :=
  repeat (first
    [ rewrite rtext_ok by done | rewrite rsized_wbin by done | rewrite rbin_wbin
    | rewrite rarr_warr | rewrite rnonce_warr by done | rewrite rsecret_ok by done
    | rewrite rusecret_ok by done | rewrite ru32_ok by done
    | rewrite rseed_info_ok by done | rewrite rcert_info_ok by done
    | rewrite ropt_dlp by done | rewrite ropt_secret by done
    | rewrite rinfo_ok by done ]; cbn [obind]).

Lemma rapi_ok a : api_ok a -> rapi (wapi a) = Some a.
Proof.
  intros [Hid H]; unfold rapi, wapi; cbv zeta;
  destruct a; cbn [msg_id] in Hid; destruct_and?;
  repeat match goal with
  | o : option _ |- _ => destruct o; cbn [opt_ok] in *; cbn [wopt]
  | b : bool |- _ => destruct b
  end;
  typed.
  all: fields; leaf'; try done.
  - (* ResListEntries *)
    unfold rlist. rewrite rall_ok; [done|].
    eapply Forall_impl; [eassumption|]. intros e He. by apply rinfo_ok.
  - unfold rlist. rewrite rall_ok; [done|].
    eapply Forall_impl; [eassumption|]. intros e He. by apply ru32_ok.
  - unfold rlist. rewrite rall_ok; [done|].
    eapply Forall_impl; [eassumption|]. intros e He. by apply ru32_ok.
  - unfold rlist. rewrite rall_ok; [done|].
    eapply Forall_impl; [eassumption|]. intros e He. by apply ru32_ok.
  - unfold rlist. rewrite rall_ok; [done|].
    eapply Forall_impl; [eassumption|]. intros e He. by apply ru32_ok.
Qed.
