(** * PropertiesJson: the text exchanged with the fallback signer (C56, C57) *)

From Verif Require Import Base Utf8 Base64 Base64Proofs ConnUrl PropertiesUrl Fallback PropertiesFallback Json JsonText Utf8Proofs.

(** ** What a string of JSON says *)

Definition surrogate (n : N) : Prop := (55296 <= n < 57344)%N.
Inductive spells : list unit16 -> bytes -> Prop :=
| P_end : spells [] []
| P_raw b s t : spells s t -> spells (Raw b :: s) (b :: t)
| P_unit n s t : ~ surrogate n -> spells s t -> spells (Esc n :: s) (utf8_of n ++ t)
| P_pair n m s t : (55296 <= n < 56320)%N -> (56320 <= m < 57344)%N -> spells s t ->
    spells (Esc n :: Esc m :: s) (utf8_of (65536 + (n - 55296) * 1024 + (m - 56320))%N ++ t).

Lemma high_spec n : high n = true <-> (55296 <= n < 56320)%N.
Proof. unfold high. rewrite andb_true_iff, N.leb_le, N.ltb_lt. done. Qed.
Lemma low_spec n : low n = true <-> (56320 <= n < 57344)%N.
Proof. unfold low. rewrite andb_true_iff, N.leb_le, N.ltb_lt. done. Qed.

Lemma chars_complete s t : spells s t -> chars_of s = Some t.
Proof.
  induction 1 as [|b s t _ IH|n s t Hn _ IH|n m s t Hn Hm _ IH]; [done|..].
  - cbn. by rewrite IH.
  - assert (low n = false) as E1. { destruct (low n) eqn:E; [|done]. apply low_spec in E. unfold surrogate in Hn. lia. }
    assert (high n = false) as E2. { destruct (high n) eqn:E; [|done]. apply high_spec in E. unfold surrogate in Hn. lia. }
    cbn [chars_of]. by rewrite E1, E2, IH.
  - assert (low n = false) as E1. { destruct (low n) eqn:E; [|done]. apply low_spec in E. lia. }
    cbn [chars_of]. by rewrite E1, (proj2 (high_spec n) Hn), (proj2 (low_spec m) Hm), IH.
Qed.
Lemma chars_sound k s t : length s <= k -> chars_of s = Some t -> spells s t.
Proof.
  revert s t. induction k as [|k IH]; intros s t Hk H.
  { destruct s; [|cbn in Hk; lia]. injection H as <-. constructor. }
  destruct s as [|[b|n] s]; [injection H as <-; constructor|..]; cbn [length] in Hk; cbn [chars_of] in H.
  - destruct (chars_of s) as [t'|] eqn:E; [|done]. injection H as <-. constructor. apply IH; [lia|done].
  - destruct (low n) eqn:E1; [done|]. destruct (high n) eqn:E2.
    + destruct s as [|[b|m] s]; [done..|]. destruct (low m) eqn:E3; [|done].
      destruct (chars_of s) as [t'|] eqn:E; [|done]. injection H as <-.
      cbn [length] in Hk. constructor; [by apply high_spec|by apply low_spec|]. apply IH; [lia|done].
    + destruct (chars_of s) as [t'|] eqn:E; [|done]. injection H as <-.
      constructor; [|apply IH; [lia|done]]. intros [H1 H2].
      destruct (N.lt_ge_cases n 56320).
      * assert (high n = true) by (by apply high_spec). congruence.
      * assert (low n = true) by (by apply low_spec). congruence.
Qed.
Lemma chars_spec s t : chars_of s = Some t <-> spells s t.
Proof. split; [by eapply chars_sound|apply chars_complete]. Qed.
Lemma spells_fun s t t' : spells s t -> spells s t' -> t = t'.
Proof. rewrite <- !chars_spec. congruence. Qed.

(** A text says one thing. *)
Lemma is_json_fun v v' l : is_json v l -> is_json v' l -> v = v'.
Proof. rewrite <- !read_json_spec. congruence. Qed.

(** ** C56: the question *)

(** The value is an object with these three members, in this order, and no others. *)
Definition asks (v : json) (id pk data : bytes) : Prop :=
  exists k1 v1 k2 v2 k3 v3 p d,
    v = JObj [(k1, JStr v1); (k2, JStr v2); (k3, JStr v3)]
    /\ spells k1 (str "msgId") /\ spells v1 id
    /\ spells k2 (str "pubKey") /\ spells v2 p /\ from_b64url p = Ok pk
    /\ spells k3 (str "dataToSign") /\ spells v3 d /\ from_b64std d = Ok data.

Definition unescape (b : byte) : unit16 :=
  if is quote b || is backslash b || is x08 b || is x09 b || is x0a b || is x0c b || is x0d b then Raw b
  else if (nb b <? 32)%N then Esc (nb b) else Raw b.

Lemma escape_text b s t : stext s t -> stext (unescape b :: s) (escape b ++ t).
Proof.
  intros H. unfold unescape, escape.
  destruct (is quote b) eqn:E1; [apply is_true in E1 as <-; cbn [orb app]; constructor; [set_solver|done]|].
  destruct (is backslash b) eqn:E2; [apply is_true in E2 as <-; cbn [orb app]; constructor; [set_solver|done]|].
  destruct (is x08 b) eqn:E3; [apply is_true in E3 as <-; cbn [orb app]; apply (S_two x62 x08); [set_solver|done]|].
  destruct (is x09 b) eqn:E4; [apply is_true in E4 as <-; cbn [orb app]; apply (S_two x74 x09); [set_solver|done]|].
  destruct (is x0a b) eqn:E5; [apply is_true in E5 as <-; cbn [orb app]; apply (S_two x6e x0a); [set_solver|done]|].
  destruct (is x0c b) eqn:E6; [apply is_true in E6 as <-; cbn [orb app]; apply (S_two x66 x0c); [set_solver|done]|].
  destruct (is x0d b) eqn:E7; [apply is_true in E7 as <-; cbn [orb app]; apply (S_two x72 x0d); [set_solver|done]|].
  cbn [orb]. destruct (N.ltb_spec (nb b) 32) as [Hlt|Hge].
  - assert (exists h, hex_val (hex_low (nb b / 16)) = Some h /\ exists k, hex_val (hex_low (nb b mod 16)) = Some k
        /\ (4096 * 0 + 256 * 0 + 16 * h + k)%N = nb b) as (h & Hh & k & Hk & Hn).
    { clear -Hlt. destruct b; try (vm_compute in Hlt; congruence);
        (eexists; split; [vm_compute; reflexivity|]; eexists; split; vm_compute; reflexivity). }
    replace (Esc (nb b)) with (Esc (4096 * 0 + 256 * 0 + 16 * h + k)%N) by (by rewrite Hn).
    by apply (S_hex x30 x30).
  - apply S_raw; [done| | |done]; intros ->; done.
Qed.
Lemma unescape_spells b s t : spells s t -> spells (unescape b :: s) (b :: t).
Proof.
  intros H. unfold unescape. destruct (_ || _); [by constructor|].
  destruct (N.ltb_spec (nb b) 32) as [Hlt|Hge]; [|by constructor].
  assert (utf8_of (nb b) = [b]) as E.
  { clear -Hlt. destruct b; try (vm_compute in Hlt; congruence); done. }
  replace (b :: t) with (utf8_of (nb b) ++ t) by (by rewrite E). constructor; [|done]. intros []. lia.
Qed.

Lemma json_string_text s : exists u, stext u (concat (map escape s)) /\ spells u s.
Proof.
  induction s as [|b s (u & H1 & H2)]; [exists []; split; constructor|].
  exists (unescape b :: u). split; [by apply escape_text|by apply unescape_spells].
Qed.

Lemma escape_no_newline b : x0a ∉ escape b.
Proof.
  rewrite elem_of_list_In. intros H. assert (existsb (is x0a) (escape b) = true) as E.
  { apply existsb_exists. exists x0a. split; [done|apply is_refl]. }
  clear H. destruct b; vm_compute in E; congruence.
Qed.
Lemma json_string_no_newline s : x0a ∉ json_string s.
Proof.
  unfold json_string, quote. rewrite elem_of_cons, elem_of_app, elem_of_list_singleton.
  intros [H|[H|H]]; try done. rewrite elem_of_list_In in H. apply in_concat in H as (x & Hx & Hb).
  apply in_map_iff in Hx as (b & <- & _). apply (escape_no_newline b). by rewrite elem_of_list_In.
Qed.

(** The line, without the newline. *)
Definition question (r : sign_req) : bytes :=
  str "{""msgId"":" ++ json_string (s_id r)
  ++ str ",""pubKey"":" ++ json_string (to_b64url (s_pk r))
  ++ str ",""dataToSign"":" ++ json_string (to_b64std (s_data r)) ++ str "}".

Lemma request_question r : request_line r = question r ++ [x0a].
Proof. unfold request_line, question. by rewrite <- !app_assoc. Qed.

Lemma question_no_newline r : x0a ∉ question r.
Proof.
  unfold question. rewrite !elem_of_app. pose proof json_string_no_newline as H.
  intros Hx. destruct_or! Hx; try (by eapply H);
    (apply elem_of_list_In in Hx; cbn in Hx; repeat destruct Hx as [Hx|Hx]; done).
Qed.

Lemma ascii_key_text k : Forall (fun b => (32 <= nb b)%N /\ b <> x22 /\ b <> x5c) k -> stext (map Raw k) k.
Proof. induction 1 as [|b k (H1 & H2 & H3) _ IH]; [constructor|]. by constructor. Qed.
Lemma raw_spells k : spells (map Raw k) k.
Proof. induction k; by constructor. Qed.

Lemma question_asks r : exists v, is_json v (question r) /\ asks v (s_id r) (s_pk r) (s_data r).
Proof.
  destruct (json_string_text (s_id r)) as (u1 & T1 & P1).
  destruct (json_string_text (to_b64url (s_pk r))) as (u2 & T2 & P2).
  destruct (json_string_text (to_b64std (s_data r))) as (u3 & T3 & P3).
  exists (JObj [(map Raw (str "msgId"), JStr u1); (map Raw (str "pubKey"), JStr u2); (map Raw (str "dataToSign"), JStr u3)]).
  assert (white []) as W by constructor. split.
  - exists [], (question r), []. split; [by rewrite app_nil_r|]. split; [done|]. split; [done|].
    assert (forall k, forallb (fun b => (32 <=? nb b)%N && negb (is x22 b) && negb (is x5c b)) k = true -> stext (map Raw k) k) as K.
    { intros k Hk. apply ascii_key_text. apply Forall_forall. intros b Hb. rewrite elem_of_list_In in Hb.
      rewrite forallb_forall in Hk. specialize (Hk b Hb). rewrite !andb_true_iff, !negb_true_iff, N.leb_le, !is_false in Hk.
      destruct Hk as [[? ?] ?]. split_and!; [done| |]; by apply not_eq_sym. }
    pose proof (M_one _ _ _ _ [] [] [] [] (K (str "dataToSign") eq_refl) (T_str _ _ T3) W W W W) as M3.
    pose proof (M_more _ _ _ _ [] [] [] [] _ _ (K (str "pubKey") eq_refl) (T_str _ _ T2) W W W W M3) as M2.
    pose proof (M_more _ _ _ _ [] [] [] [] _ _ (K (str "msgId") eq_refl) (T_str _ _ T1) W W W W M2) as M1.
    pose proof (T_obj _ _ M1) as T. clear -T. unfold question, json_string.
    match type of T with jtext _ ?x => match goal with |- jtext _ ?y => replace y with x; [exact T|] end end.
    change (str "{""msgId"":") with (x7b :: (x22 :: str "msgId" ++ [x22]) ++ [x3a]).
    change (str ",""pubKey"":") with (x2c :: (x22 :: str "pubKey" ++ [x22]) ++ [x3a]).
    change (str ",""dataToSign"":") with (x2c :: (x22 :: str "dataToSign" ++ [x22]) ++ [x3a]).
    change (str "}") with [x7d]. unfold quote.
    cbn [app]. repeat (rewrite <- !app_assoc; cbn [app]). by rewrite ?app_nil_r.
  - eexists _, _, _, _, _, _, _, _. split; [done|]. split; [apply raw_spells|]. split; [exact P1|].
    split; [apply raw_spells|]. split; [exact P2|]. split; [apply from_to_b64url|].
    split; [apply raw_spells|]. split; [exact P3|]. apply from_to_b64std.
Qed.

(** The question is one line, of JSON; whoever reads it as JSON finds just what is asked. *)
Theorem C56_question_says :
  forall r : sign_req, exists t : bytes,
    request_line r = t ++ [x0a] /\ x0a ∉ t
    /\ (exists v, is_json v t)
    /\ forall v, is_json v t -> asks v (s_id r) (s_pk r) (s_data r).
Proof.
  intros r. exists (question r). split; [apply request_question|]. split; [apply question_no_newline|].
  destruct (question_asks r) as (v & Hj & Ha). split; [by exists v|].
  intros v' Hj'. by rewrite (is_json_fun _ _ _ Hj' Hj).
Qed.
Print Assumptions C56_question_says.

Lemma newline_split a b c d : x0a ∉ a -> x0a ∉ b -> a ++ x0a :: c = b ++ x0a :: d -> a = b /\ c = d.
Proof.
  revert b. induction a as [|x a IH]; intros [|y b] Ha Hb H; cbn in H.
  - by injection H.
  - injection H as <- _. set_solver.
  - injection H as -> _. set_solver.
  - injection H as -> H. apply IH in H as [-> ->]; [done|set_solver..].
Qed.

Lemma asks_fun v i p d i' p' d' : asks v i p d -> asks v i' p' d' -> i = i' /\ p = p' /\ d = d'.
Proof.
  intros (k1 & v1 & k2 & v2 & k3 & v3 & p0 & d0 & -> & _ & H1 & _ & H2 & B2 & _ & H3 & B3).
  intros (k1' & v1' & k2' & v2' & k3' & v3' & p1 & d1 & E & _ & H1' & _ & H2' & B2' & _ & H3' & B3').
  injection E as <- <- <- <- <- <-.
  pose proof (spells_fun _ _ _ H1 H1'). pose proof (spells_fun _ _ _ H2 H2'). pose proof (spells_fun _ _ _ H3 H3').
  subst. rewrite B2 in B2'. rewrite B3 in B3'. injection B2' as ->. injection B3' as ->. done.
Qed.

Lemma line_prefix r r' l l' : request_line r ++ l = request_line r' ++ l' -> r = r' /\ l = l'.
Proof.
  rewrite !request_question, <- !app_assoc. cbn [app]. intros H.
  apply newline_split in H as [H ->]; [|apply question_no_newline..]. split; [|done].
  destruct (question_asks r) as (v & Hj & Ha). destruct (question_asks r') as (v' & Hj' & Ha').
  rewrite <- H in Hj'. rewrite (is_json_fun _ _ _ Hj' Hj) in Ha'.
  destruct (asks_fun _ _ _ _ _ _ _ Ha Ha') as (E1 & E2 & E3). destruct r, r'; cbn in *; congruence.
Qed.

(** Questions written one after another, up to any point, are told apart: no line begins another,
    and what was written tells which questions were asked, in which order. *)
Theorem C56_stream :
  forall (rs rs' : list sign_req) (rest rest' : bytes),
    concat (map request_line rs) ++ rest = concat (map request_line rs') ++ rest' ->
    exists more, (rs' = rs ++ more /\ rest = concat (map request_line more) ++ rest')
              \/ (rs = rs' ++ more /\ rest' = concat (map request_line more) ++ rest).
Proof.
  induction rs as [|r rs IH]; intros rs' rest rest' H; [exists rs'; by left|].
  destruct rs' as [|r' rs']; [exists (r :: rs); by right|].
  cbn [map concat] in H. rewrite <- !app_assoc in H. apply line_prefix in H as [<- H].
  apply IH in H as (more & [(-> & ->)|(-> & ->)]); exists more; [by left|by right].
Qed.
Print Assumptions C56_stream.

Corollary request_lines_inj rs rs' : concat (map request_line rs) = concat (map request_line rs') -> rs = rs'.
Proof.
  intros H. destruct (C56_stream rs rs' [] []) as (more & [(-> & E)|(-> & E)]); [by rewrite !app_nil_r| |];
    (destruct more as [|r more]; [by rewrite app_nil_r|]; cbn in E; unfold request_line in E; by destruct more).
Qed.

(** An id with a quote, a newline and a control character: it stays on one line. *)
Definition odd_req : sign_req := SignReq [x22; x0a; x01; x61] (replicate 32 x07) (str "data").
Example C56_case :
  request_line odd_req =
    str "{""msgId"":""\""\n\u0001a"",""pubKey"":""BwcHBwcHBwcHBwcHBwcHBwcHBwcHBwcHBwcHBwcHBwc"",""dataToSign"":""ZGF0YQ==""}"
    ++ [x0a]
  /\ read_json (request_line odd_req) <> None.
Proof. split; [by vm_compute|]. vm_compute. done. Qed.

(** ** C57: answers *)

(** Among the members, [k] is there just once, with value [v]; or not at all. *)
Definition once (ms : list (list unit16 * json)) (k : bytes) (v : json) : Prop :=
  exists before name after, ms = before ++ (name, v) :: after /\ spells name k
    /\ forall n x, (n, x) ∈ before ++ after -> ~ spells n k.
Definition absent (ms : list (list unit16 * json)) (k : bytes) : Prop :=
  forall n x, (n, x) ∈ ms -> ~ spells n k.

(** A text or nothing. *)
Definition maybe_text (v : json) (o : option bytes) : Prop :=
  (v = JNull /\ o = None) \/ exists s x, v = JStr s /\ o = Some x /\ spells s x.
Definition maybe_member (ms : list (list unit16 * json)) (k : bytes) (o : option bytes) : Prop :=
  (absent ms k /\ o = None) \/ exists v, once ms k v /\ maybe_text v o.

(** The value says: to question [id], this signature, or this error. *)
Definition answers (v : json) (id : bytes) (sig err : option bytes) : Prop :=
  (exists ms i, v = JObj ms /\ (forall n x, (n, x) ∈ ms -> exists k, spells n k)
     /\ once ms (str "msgId") (JStr i) /\ spells i id
     /\ maybe_member ms (str "signature") sig /\ maybe_member ms (str "error") err)
  \/ exists i s e, v = JArr [JStr i; s; e] /\ spells i id /\ maybe_text s sig /\ maybe_text e err.

Lemma text_of_spec v x : text_of v = Some x <-> exists s, v = JStr s /\ spells s x.
Proof.
  unfold text_of. split.
  - destruct v; try done. rewrite chars_spec. by eauto.
  - intros (s & -> & H). by apply chars_spec.
Qed.
Lemma opt_text_spec v o : opt_text_of v = Some o <-> maybe_text v o.
Proof.
  unfold opt_text_of, maybe_text. split.
  - destruct v as [| | |s| |]; try done; [intros [= <-]; by left|].
    cbn [text_of]. destruct (chars_of s) as [x|] eqn:E; [|done]. intros [= <-].
    right. exists s, x. by rewrite <- chars_spec.
  - intros [[-> ->]|(s & x & -> & -> & H)]; [done|]. cbn. by rewrite (proj2 (chars_spec s x) H).
Qed.

Lemma named_spec ms l : named ms = Some l <->
  Forall2 (fun kv nv => spells (fst kv) (fst nv) /\ snd kv = snd nv) ms l.
Proof.
  revert l. induction ms as [|[k v] ms IH]; intros l; cbn [named].
  - split; [intros [= <-]; constructor|]. by inversion 1.
  - split.
    + destruct (chars_of k) as [x|] eqn:E; [|done]. destruct (named ms) as [l'|] eqn:En; [|done].
      intros [= <-]. constructor; [split; [by apply chars_spec|done]|by apply IH].
    + inversion 1 as [|? [n y] ? l' [H1 H2] H3]; subst. cbn in *. subst.
      apply chars_spec in H1. rewrite H1. apply IH in H3. by rewrite H3.
Qed.
Lemma named_total ms : (forall n x, (n, x) ∈ ms -> exists k, spells n k) -> exists l, named ms = Some l.
Proof.
  induction ms as [|[k v] ms IH]; intros H; [by exists []|]. cbn [named].
  destruct (H k v) as [x Hx]; [left|]. destruct IH as [l Hl]; [intros n y Hn; eapply H; by right|].
  apply chars_spec in Hx. rewrite Hx, Hl. by eexists.
Qed.

Lemma all_of_app k a b : all_of k (a ++ b) = all_of k a ++ all_of k b.
Proof. unfold all_of. by rewrite List.filter_app, map_app. Qed.
Lemma all_of_cons k n v l : all_of k ((n, v) :: l) = (if beq n k then [v] else []) ++ all_of k l.
Proof. unfold all_of. cbn. by destruct (beq n k). Qed.

Lemma all_of_absent ms l k : named ms = Some l -> (all_of k l = [] <-> absent ms k).
Proof.
  rewrite named_spec. induction 1 as [|[n v] [n' v'] ms l [H1 H2] H IH]; cbn [fst snd] in *.
  - split; [|done]. intros _ n x Hx. by apply elem_of_nil in Hx.
  - subst v'. rewrite all_of_cons. destruct (beq n' k) eqn:E.
    + apply beq_true in E as ->. split; [done|]. intros Ha. destruct (Ha n v); [left|done].
    + cbn [app]. rewrite IH. split.
      * intros Ha m x Hm. apply elem_of_cons in Hm as [[= -> ->]|Hm]; [|by eapply Ha].
        intros Hs. rewrite (spells_fun _ _ _ H1 Hs), beq_refl in E. done.
      * intros Ha m x Hm. eapply Ha. by right.
Qed.
Lemma absent_app a b k : absent (a ++ b) k <-> absent a k /\ absent b k.
Proof. unfold absent. setoid_rewrite elem_of_app. naive_solver. Qed.

Lemma all_of_once ms l k v : named ms = Some l -> (all_of k l = [v] <-> once ms k v).
Proof.
  intros Hn. split.
  - revert l Hn. induction ms as [|[n x] ms IH]; intros l Hn H.
    { injection Hn as <-. done. }
    cbn [named] in Hn. destruct (chars_of n) as [n'|] eqn:E; [|done]. destruct (named ms) as [l'|] eqn:En; [|done].
    injection Hn as <-. apply chars_spec in E. rewrite all_of_cons in H. destruct (beq n' k) eqn:Eb.
    + apply beq_true in Eb as ->. cbn [app] in H. injection H as -> H.
      exists [], n, ms. split; [done|]. split; [done|]. cbn [app].
      by apply (all_of_absent _ _ _ En).
    + cbn [app] in H. destruct (IH _ eq_refl H) as (a & m & b & -> & Hs & Ho).
      exists ((n, x) :: a), m, b. split; [done|]. split; [done|]. intros n0 y Hy. cbn [app] in Hy.
      apply elem_of_cons in Hy as [[= -> ->]|Hy]; [|by eapply Ho].
      intros Hk. rewrite (spells_fun _ _ _ E Hk), beq_refl in Eb. done.
  - intros (a & m & b & -> & Hs & Ho). apply named_spec in Hn.
    apply Forall2_app_inv_l in Hn as (la & lb & Ha & Hb & ->).
    inversion Hb as [|? [m' v'] ? lb' [H1 H2] Hb']; subst. cbn [fst snd] in *. subst v'.
    apply absent_app in Ho as [Oa Ob].
    apply named_spec in Ha. apply named_spec in Hb'.
    rewrite all_of_app, all_of_cons, (spells_fun _ _ _ H1 Hs), beq_refl.
    apply (all_of_absent _ _ _ Ha) in Oa. apply (all_of_absent _ _ _ Hb') in Ob. by rewrite Oa, Ob.
Qed.

Lemma opt_member_spec ms l k o : named ms = Some l -> (opt_member k l = Some o <-> maybe_member ms k o).
Proof.
  intros Hn. unfold opt_member, maybe_member. split.
  - destruct (all_of k l) as [|v [|? ?]] eqn:E; [| |done].
    + intros [= <-]. left. by apply (all_of_absent _ _ _ Hn) in E.
    + rewrite opt_text_spec. intros H. right. exists v. by rewrite <- (all_of_once _ _ _ _ Hn).
  - intros [[Ha ->]|(v & Ho & Ht)].
    + apply (all_of_absent _ _ _ Hn) in Ha. by rewrite Ha.
    + apply (all_of_once _ _ _ _ Hn) in Ho. rewrite Ho. by apply opt_text_spec.
Qed.

Lemma reply_of_spec v id sig err : reply_of v = Reply id sig err <-> answers v id sig err.
Proof.
  unfold answers. split.
  - destruct v as [| | | |vs|ms]; try done.
    + destruct vs as [|i [|s [|e [|? ?]]]]; try done. cbn [reply_of].
      destruct (text_of i) as [i'|] eqn:E1; [|done]. destruct (opt_text_of s) as [s'|] eqn:E2; [|done].
      destruct (opt_text_of e) as [e'|] eqn:E3; [|done]. intros [= <- <- <-]. right.
      apply text_of_spec in E1 as (u & -> & Hu). apply opt_text_spec in E2. apply opt_text_spec in E3.
      by exists u, s, e.
    + cbn [reply_of]. destruct (named ms) as [l|] eqn:En; [|done].
      destruct (all_of (str "msgId") l) as [|i [|? ?]] eqn:Ei; try done.
      destruct (text_of i) as [i'|] eqn:E1; [|done].
      destruct (opt_member (str "signature") l) as [s'|] eqn:E2; [|done].
      destruct (opt_member (str "error") l) as [e'|] eqn:E3; [|done]. intros [= <- <- <-]. left.
      apply text_of_spec in E1 as (u & -> & Hu).
      apply (opt_member_spec _ _ _ _ En) in E2. apply (opt_member_spec _ _ _ _ En) in E3.
      apply (all_of_once _ _ _ _ En) in Ei. exists ms, u. split_and!; try done.
      apply named_spec in En. clear -En. intros n x Hx.
      induction En as [|[k y] [k' y'] ms l [H1 H2] _ IH]; [by apply elem_of_nil in Hx|].
      apply elem_of_cons in Hx as [[= -> ->]|Hx]; [by eexists|by apply IH].
  - intros [(ms & i & -> & Hk & Hi & Hs & H2 & H3)|(i & s & e & -> & Hs & H2 & H3)].
    + destruct (named_total ms Hk) as [l Hl]. cbn [reply_of]. rewrite Hl.
      apply (all_of_once _ _ _ _ Hl) in Hi. rewrite Hi.
      apply (opt_member_spec _ _ _ _ Hl) in H2. apply (opt_member_spec _ _ _ _ Hl) in H3.
      cbn [text_of]. by rewrite (proj2 (chars_spec i id) Hs), H2, H3.
    + cbn [reply_of text_of]. apply opt_text_spec in H2. apply opt_text_spec in H3.
      by rewrite (proj2 (chars_spec i id) Hs), H2, H3.
Qed.

(** However it is printed, a line that is JSON and answers is read as this answer; and no other
    line is. *)
Theorem C57_answer_iff :
  forall (t id : bytes) (sig err : option bytes),
    parse_line t = Reply id sig err
    <-> utf8 t = true /\ exists v, is_json v t /\ answers v id sig err.
Proof.
  intros t id sig err. unfold parse_line. destruct (utf8 t); [|split; [done|by intros [? _]]].
  destruct (read_json t) as [v|] eqn:E.
  - rewrite reply_of_spec. apply read_json_spec in E. split.
    + intros H. split; [done|]. by exists v.
    + intros [_ (v' & Hj & H)]. by rewrite (is_json_fun _ _ _ E Hj).
  - split; [done|]. intros [_ (v & Hj & _)]. apply read_json_spec in Hj. congruence.
Qed.
Print Assumptions C57_answer_iff.

(** A line that answers with the standard base64 form of 64 bytes gives these, for this question;
    a line that answers with an error gives this error, whatever else it says. *)
Theorem C57_signature_taken :
  forall (t id sig : bytes) (v : json),
    utf8 t = true -> is_json v t -> length sig = 64 ->
    answers v id (Some (to_b64std sig)) None -> says (parse_line t) id (Ok sig).
Proof.
  intros t id sig v Hu Hj Hl Ha. exists (to_b64std sig). split.
  - apply C57_answer_iff. split; [done|]. by exists v.
  - split; [apply from_to_b64std|done].
Qed.
Print Assumptions C57_signature_taken.

Theorem C57_error_taken :
  forall (t id e : bytes) (sig : option bytes) (v : json),
    utf8 t = true -> is_json v t -> answers v id sig (Some e) -> says (parse_line t) id (Err e).
Proof.
  intros t id e sig v Hu Hj Ha. left. exists sig. apply C57_answer_iff. split; [done|]. by exists v.
Qed.
Print Assumptions C57_error_taken.

(** Lines: each ended by a newline, or by a carriage return and a newline; the last one may lack
    the newline. *)
Definition line_end (e : bytes) : Prop := e = [x0a] \/ e = [x0d; x0a].
Definition no_cr_end (l : bytes) : Prop := forall a, l <> a ++ [x0d].

Lemma chomp_cr l : chomp (l ++ [x0d]) = l.
Proof. unfold chomp. rewrite rev_unit. cbn. apply rev_involutive. Qed.
Lemma chomp_other l : no_cr_end l -> chomp l = l.
Proof.
  intros H. unfold chomp. destruct (rev l) as [|b r] eqn:E.
  - apply (f_equal (@rev _)) in E. rewrite rev_involutive in E. done.
  - destruct (is x0d b) eqn:Eb; [|done]. apply is_true in Eb as <-. exfalso. apply (H (rev r)).
    rewrite <- (rev_involutive l), E. done.
Qed.

Lemma out_lines_cons a r : x0a ∉ a -> out_lines (a ++ x0a :: r) = chomp a :: out_lines r.
Proof.
  intros H. unfold out_lines. rewrite split_on_app by (apply Forall_forall; intros b Hb; apply is_false; by intros <-).
  cbn [rev]. destruct (rev (split_on x0a r)) as [|l ls] eqn:E.
  - exfalso. apply (split_on_ne x0a r). by rewrite <- (rev_involutive (split_on x0a r)), E.
  - cbn [app]. rewrite rev_unit. done.
Qed.
Lemma out_lines_last l : x0a ∉ l -> out_lines l = match l with [] => [] | _ => [l] end.
Proof.
  intros H. unfold out_lines. rewrite split_on_none by (apply Forall_forall; intros b Hb; apply is_false; by intros <-).
  done.
Qed.

Theorem C57_lines :
  forall (ls : list (bytes * bytes)) (rest : bytes),
    Forall (fun le => x0a ∉ fst le /\ no_cr_end (fst le) /\ line_end (snd le)) ls -> x0a ∉ rest ->
    out_lines (concat (map (fun le => fst le ++ snd le) ls) ++ rest)
    = map fst ls ++ match rest with [] => [] | _ => [rest] end.
Proof.
  intros ls rest H Hr. induction H as [|[l e] ls (H1 & H2 & H3) _ IH]; [by apply out_lines_last|].
  cbn [map concat fst snd] in *. rewrite <- !app_assoc. destruct H3 as [->| ->]; cbn [app].
  - rewrite out_lines_cons, IH, chomp_other by done. done.
  - replace (l ++ x0d :: x0a :: concat (map (fun le => fst le ++ snd le) ls) ++ rest)
      with ((l ++ [x0d]) ++ x0a :: concat (map (fun le => fst le ++ snd le) ls) ++ rest)
      by (by rewrite <- app_assoc).
    rewrite out_lines_cons, IH, chomp_cr by (try done; set_solver). done.
Qed.
Print Assumptions C57_lines.

(** An answer printed with blanks, escapes, another member and a surrogate pair in the id. *)
Definition odd_answer : bytes :=
  str " { ""note"" : [1.5e3, {""x"":null}, ""\ud800""],  ""signature"":null, ""msgId"" : ""a\u00e9\ud83d\ude00"", ""error"" :""no\/\n"" } ".
Example C57_case :
  parse_line odd_answer = Reply (str "a" ++ [xc3; xa9; xf0; x9f; x98; x80]) None (Some (str "no/" ++ [x0a]))
  /\ parse_line (str "{""msgId"":""1"",""msgId"":""1""}") = Garbage
  /\ out_lines (str "a" ++ [x0d; x0a] ++ str "b" ++ [x0a] ++ str "c") = [str "a"; str "b"; str "c"].
Proof. split_and!; by vm_compute. Qed.

(** What texts are: the bytes taken for one are just the UTF-8 forms of code points, and a text
    written in escapes, as UTF-16 units, is read as its UTF-8 form. *)
Theorem C57_texts :
  forall l, utf8 l = true <-> exists cps, Forall scalar cps /\ l = concat (map utf8_of cps).
Proof.
  intros l. split; [by apply (utf8_points (length l))|].
  intros (cps & H & ->). induction H as [|n cps Hn _ IH]; [done|].
  cbn [map concat]. by rewrite utf8_of_ok.
Qed.
Print Assumptions C57_texts.

(** UTF-16: a code point as one unit, or as two surrogates. *)
Definition utf16 (n : N) : list N :=
  if (n <? 65536)%N then [n] else [55296 + (n - 65536) / 1024; 56320 + (n - 65536) mod 1024]%N.

Theorem C57_escapes :
  forall cps, Forall scalar cps ->
    chars_of (map Esc (concat (map utf16 cps))) = Some (concat (map utf8_of cps)).
Proof.
  intros cps H. induction H as [|n cps Hn _ IH]; [done|].
  cbn [map concat]. unfold utf16 at 1. unfold scalar in Hn. destruct (N.ltb_spec n 65536).
  - cbn [app map chars_of].
    replace (high n) with false by (unfold high; destruct (N.leb_spec 55296 n), (N.ltb_spec n 56320); cbn [andb]; done || lia).
    replace (low n) with false by (unfold low; destruct (N.leb_spec 56320 n), (N.ltb_spec n 57344); cbn [andb]; done || lia).
    by rewrite IH.
  - set (m := (n - 65536)%N) in *.
    assert (m / 1024 < 1024 /\ m mod 1024 < 1024 /\ m = 1024 * (m / 1024) + m mod 1024)%N as (? & ? & ?)
      by (Z.to_euclidean_division_equations; lia).
    assert (high (55296 + m / 1024)%N = true) as Eh.
    { unfold high. destruct (N.leb_spec 55296 (55296 + m / 1024)%N), (N.ltb_spec (55296 + m / 1024)%N 56320); cbn [andb]; done || lia. }
    assert (low (55296 + m / 1024)%N = false) as El.
    { unfold low. destruct (N.leb_spec 56320 (55296 + m / 1024)%N), (N.ltb_spec (55296 + m / 1024)%N 57344); cbn [andb]; done || lia. }
    assert (low (56320 + m mod 1024)%N = true) as El'.
    { unfold low. destruct (N.leb_spec 56320 (56320 + m mod 1024)%N), (N.ltb_spec (56320 + m mod 1024)%N 57344); cbn [andb]; done || lia. }
    cbn [app map chars_of]. rewrite ?Eh, ?El, ?El'.
    replace (65536 + (55296 + m / 1024 - 55296) * 1024 + (56320 + m mod 1024 - 56320))%N with n by lia.
    by rewrite IH.
Qed.
Print Assumptions C57_escapes.

Example C57_escapes_case :
  chars_of [Esc 233; Raw x61; Esc 55357; Esc 56832] = Some [xc3; xa9; x61; xf0; x9f; x98; x80]
  /\ utf8 [xc3; xa9; x61; xf0; x9f; x98; x80] = true /\ utf16 128512 = [55357; 56832]%N.
Proof. split; [|split]; by vm_compute. Qed.
