(** * PropertiesUrl: connection URLs (C45, C52) *)

From Verif Require Import Base Utf8 Base64 Base64Proofs ConnUrl.
From Coq Require Import ZifyBool ZifyNat ZifyN.

Local Arguments is : simpl never.

(** ** Lemmas *)

Lemma is_true c b : is c b = true <-> c = b.
Proof. unfold is. split; [apply Byte.byte_dec_bl|apply Byte.byte_dec_lb]. Qed.
Lemma is_false c b : is c b = false <-> c <> b.
Proof. rewrite <- is_true. by destruct (is c b). Qed.
Lemma is_refl c : is c c = true.
Proof. by apply is_true. Qed.

Lemma cut_app p a b r : Forall (fun x => p x = false) a -> p b = true -> cut p (a ++ b :: r) = (a, b :: r).
Proof. intros Ha Hb. induction Ha as [|x a Hx _ IH]; cbn; [by rewrite Hb|]. by rewrite Hx, IH. Qed.

Lemma cut_all p a : Forall (fun x => p x = false) a -> cut p a = (a, []).
Proof. induction 1 as [|x a Hx _ IH]; cbn; [done|]. by rewrite Hx, IH. Qed.

Lemma cut_spec p l x y : cut p l = (x, y) ->
  l = x ++ y /\ Forall (fun b => p b = false) x
  /\ match y with [] => True | b :: _ => p b = true end.
Proof.
  revert x y. induction l as [|b l IH]; intros x y; cbn; [by intros [= <- <-]|].
  destruct (p b) eqn:E; [intros [= <- <-]; by repeat split|].
  destruct (cut p l) as [x' y']. intros [= <- <-]. destruct (IH x' y' eq_refl) as (-> & HF & Hy).
  repeat split; [|done]. by constructor.
Qed.

Lemma split_on_none c l : Forall (fun b => is c b = false) l -> split_on c l = [l].
Proof. induction 1 as [|b l Hb _ IH]; [done|]. cbn. by rewrite Hb, IH. Qed.

Lemma split_on_app c a r : Forall (fun b => is c b = false) a ->
  split_on c (a ++ c :: r) = a :: split_on c r.
Proof. induction 1 as [|b a Hb _ IH]; cbn; [by rewrite is_refl|]. by rewrite Hb, IH. Qed.

Lemma split_on_free c l : Forall (Forall (fun b => is c b = false)) (split_on c l).
Proof.
  induction l as [|b l IH]; cbn; [by repeat constructor|]. destruct (is c b) eqn:E.
  - by constructor.
  - inversion IH as [|x xs Hx Hxs E']; [by repeat constructor|]. by repeat constructor.
Qed.

Lemma split_on_ne c l : split_on c l <> [].
Proof. destruct l as [|b l]; cbn; [done|]. destruct (is c b); [done|]. by destruct (split_on c l). Qed.

(** Slash-separated segments. *)
Lemma split_slashes l : l <> [] -> Forall (Forall (fun b => is slash b = false)) l ->
  split_on slash (tail (concat (map (cons slash) l))) = l.
Proof.
  intros Hn HF. destruct l as [|s l]; [done|]. clear Hn. cbn. inversion HF as [|? ? Hs Hl]; subst.
  clear HF. revert s Hs. induction Hl as [|t l Ht _ IH]; intros s Hs; cbn.
  - rewrite app_nil_r. by apply split_on_none.
  - rewrite split_on_app by done. by rewrite IH.
Qed.

Lemma skip_edge_id b l : edge b = false -> skip_edge (b :: l) = b :: l.
Proof. cbn. by intros ->. Qed.

Lemma trim_edges_id a l b : edge a = false -> edge b = false ->
  trim_edges (a :: l ++ [b]) = a :: l ++ [b].
Proof.
  intros Ha Hb. unfold trim_edges. rewrite skip_edge_id by done.
  assert (rev (a :: l ++ [b]) = b :: rev (a :: l)) as E by (cbn; by rewrite rev_app_distr).
  rewrite E, skip_edge_id, <- E by done. apply rev_involutive.
Qed.

Lemma filter_all {A} (f : A -> bool) l : Forall (fun x => f x = true) l -> List.filter f l = l.
Proof. induction 1 as [|x l Hx _ IH]; [done|]. cbn. by rewrite Hx, IH. Qed.

Lemma pct_encode_id esc l : Forall (fun b => esc b = false) l -> pct_encode esc l = l.
Proof.
  unfold pct_encode. induction 1 as [|b l Hb _ IH]; [done|]. cbn. by rewrite Hb, IH.
Qed.

(** Bytes that stand for themselves. *)
Definition good_set (esc : byte -> bool) : Prop :=
  esc x25 = false /\ forall n, (n < 16)%N -> esc (hex_up n) = false.

Lemma lt16 n : (n < 16)%N -> n ∈ [0; 1; 2; 3; 4; 5; 6; 7; 8; 9; 10; 11; 12; 13; 14; 15]%N.
Proof.
  intros H. assert (n = 0 \/ n = 1 \/ n = 2 \/ n = 3 \/ n = 4 \/ n = 5 \/ n = 6 \/ n = 7 \/ n = 8
    \/ n = 9 \/ n = 10 \/ n = 11 \/ n = 12 \/ n = 13 \/ n = 14 \/ n = 15)%N as Hn by lia.
  repeat destruct Hn as [->|Hn]; [..|rewrite Hn]; by apply (bool_decide_unpack _).
Qed.

Lemma hex_up_all (P : byte -> bool) :
  forallb (fun n => P (hex_up n)) [0; 1; 2; 3; 4; 5; 6; 7; 8; 9; 10; 11; 12; 13; 14; 15]%N = true ->
  forall n, (n < 16)%N -> P (hex_up n) = true.
Proof. intros H n Hn. rewrite forallb_forall in H. apply H, elem_of_list_In, lt16, Hn. Qed.

Lemma good_of esc : esc x25 = false ->
  forallb (fun n => negb (esc (hex_up n))) [0; 1; 2; 3; 4; 5; 6; 7; 8; 9; 10; 11; 12; 13; 14; 15]%N = true ->
  good_set esc.
Proof.
  intros H1 H2. split; [done|]. intros n Hn.
  pose proof (hex_up_all (fun b => negb (esc b)) H2 n Hn) as H. cbv beta in H.
  by apply negb_true_iff in H.
Qed.

Lemma good_path : good_set esc_path. Proof. apply good_of; by vm_compute. Qed.
Lemma good_query : good_set esc_query. Proof. apply good_of; by vm_compute. Qed.
Lemma good_fragment : good_set esc_fragment. Proof. apply good_of; by vm_compute. Qed.

Lemma nibbles b : (nb b / 16 < 16)%N /\ (nb b mod 16 < 16)%N.
Proof. pose proof (nb_lt b). split; [apply N.div_lt_upper_bound; lia|apply N.mod_lt; lia]. Qed.

Lemma pct_encode_clean esc l : good_set esc -> Forall (fun b => esc b = false) (pct_encode esc l).
Proof.
  intros [H1 H2]. unfold pct_encode. induction l as [|b l IH]; [constructor|]. cbn [map concat].
  apply Forall_app. split; [|done]. destruct (nibbles b). destruct (esc b) eqn:E; by repeat (constructor; auto).
Qed.

Lemma hex_up_not_slash n : (n < 16)%N -> is slash (hex_up n) = false.
Proof.
  intros H. pose proof (hex_up_all (fun b => negb (is slash b)) eq_refl n H) as E. cbv beta in E.
  by apply negb_true_iff in E.
Qed.

Lemma pct_encode_slash esc l : Forall (fun b => is slash b = false) l ->
  Forall (fun b => is slash b = false) (pct_encode esc l).
Proof.
  unfold pct_encode. induction 1 as [|b l Hb _ IH]; [constructor|]. cbn [map concat].
  apply Forall_app. split; [|done]. destruct (nibbles b).
  destruct (esc b); repeat constructor; try done; by apply hex_up_not_slash.
Qed.

Lemma hex_val_up n : (n < 16)%N -> hex_val (hex_up n) = Some n.
Proof.
  intros H. apply lt16 in H. repeat (apply elem_of_cons in H as [->|H]; [by vm_compute|]).
  by apply elem_of_nil in H.
Qed.

Lemma pct_decode_id l : Forall (fun b => is x25 b = false) l -> pct_decode l = l.
Proof. induction 1 as [|b l Hb _ IH]; [done|]. cbn. by rewrite Hb, IH. Qed.

Lemma pct_decode_encode esc l : Forall (fun b => is x25 b = false) l -> pct_decode (pct_encode esc l) = l.
Proof.
  unfold pct_encode. induction 1 as [|b l Hb _ IH]; [done|]. cbn [map concat].
  destruct (esc b).
  - cbn [app pct_decode]. change (is x25 x25) with true. cbn. destruct (nibbles b).
    rewrite !hex_val_up by done. rewrite IH. f_equal.
    rewrite <- N.div_mod by done. by rewrite bn_nb.
  - cbn [app pct_decode]. by rewrite Hb, IH.
Qed.

(** The characters of base64 mean nothing else in a URL. *)
Definition plain (b : byte) : bool :=
  negb (edge b) && negb (tab_nl b) && negb (esc_query b) && negb (is hash b) && negb (is x26 b)
  && negb (is x3d b) && negb (is x2b b) && negb (is x25 b) && negb (is quest b).

Lemma sym_plain n : (n < 64)%N -> plain (sym UrlSafe n) = true.
Proof.
  intros H.
  assert (forallb (fun k => plain (sym UrlSafe (N.of_nat k))) (seq 0 64) = true) as HF by by vm_compute.
  rewrite forallb_forall in HF. specialize (HF (N.to_nat n)). rewrite N2Nat.id in HF.
  apply HF, in_seq. lia.
Qed.

Lemma b64_plain l : Forall (fun b => plain b = true) (to_b64url l).
Proof.
  unfold to_b64url. induction l as [|a|a b|a b c l IH] using list_ind3; cbn [encode_np].
  all: repeat constructor; try done; apply sym_plain.
  all: try (pose proof (nb_lt a)); try (pose proof (nb_lt b)); try (pose proof (nb_lt c)).
  all: try (apply N.mod_lt; lia).
  all: try (apply N.div_lt_upper_bound; lia).
  all: try (assert (nb a mod 4 < 4)%N by (apply N.mod_lt; lia)).
  all: try (assert (nb b / 16 < 16)%N by (apply N.div_lt_upper_bound; lia)).
  all: try (assert (nb b mod 16 < 16)%N by (apply N.mod_lt; lia)).
  all: try (assert (nb c / 64 < 4)%N by (apply N.div_lt_upper_bound; lia)).
  all: lia.
Qed.

Lemma plain_spec b : plain b = true ->
  edge b = false /\ tab_nl b = false /\ esc_query b = false /\ is hash b = false /\ is x26 b = false
  /\ is x3d b = false /\ is x2b b = false /\ is x25 b = false /\ is quest b = false.
Proof.
  unfold plain. rewrite !andb_true_iff, !negb_true_iff. tauto.
Qed.

Lemma b64_forall l (P : byte -> Prop) : (forall b, plain b = true -> P b) -> Forall P (to_b64url l).
Proof. intros H. eapply Forall_impl; [apply b64_plain|]. exact H. Qed.

Lemma b64_ne pk : length pk = 32 -> to_b64url pk <> [].
Proof. intros H. destruct pk as [|a [|b [|c pk]]]; done. Qed.

Ltac plain H := apply plain_spec in H; tauto.

Lemma push_slash d name : exists sep, push (slash :: d) name = slash :: d ++ sep ++ name
  /\ (sep = [] \/ sep = [slash]).
Proof.
  unfold push. destruct (rev (slash :: d)) as [|b r] eqn:E.
  - apply (f_equal length) in E. rewrite rev_length in E. done.
  - destruct (is slash b); [exists []|exists [slash]]; auto.
Qed.

(** The text of a generated URL once trimmed and without tabs and line ends. *)
Lemma generated_text P pk : length pk = 32 ->
  List.filter (fun b => negb (tab_nl b)) (trim_edges (scheme ++ P ++ str "?k=" ++ to_b64url pk))
  = scheme ++ List.filter (fun b => negb (tab_nl b)) P ++ str "?k=" ++ to_b64url pk.
Proof.
  intros Hl. destruct (exists_last (b64_ne pk Hl)) as (t & b & Et).
  assert (edge b = false) as Hb.
  { assert (plain b = true) as Hp.
    { pose proof (b64_plain pk) as HF. rewrite Et in HF. apply Forall_app in HF as [_ HF].
      by apply Forall_inv in HF. }
    plain Hp. }
  rewrite Et.
  change scheme with (x75 :: str "nix://") at 1.
  assert ((x75 :: str "nix://") ++ P ++ str "?k=" ++ t ++ [b]
          = x75 :: (str "nix://" ++ P ++ str "?k=" ++ t) ++ [b]) as ->
    by (cbn; by rewrite <- !app_assoc).
  rewrite trim_edges_id by done. rewrite <- Et.
  assert (x75 :: (str "nix://" ++ P ++ str "?k=" ++ t) ++ [b] = scheme ++ P ++ str "?k=" ++ to_b64url pk) as ->
    by (rewrite Et; cbn; by rewrite <- !app_assoc).
  rewrite !List.filter_app. f_equal. f_equal. f_equal.
  apply filter_all. apply b64_forall. intros c Hc. apply plain_spec in Hc as (_ & -> & _). done.
Qed.

Lemma take_scheme x : take 7 (scheme ++ x) = scheme /\ drop 7 (scheme ++ x) = x.
Proof. done. Qed.

(** ** C45: the connection URL carries the server key *)

Definition query_k (pk : bytes) : bytes := str "k=" ++ to_b64url pk.

Lemma query_k_id pk : pct_encode esc_query (query_k pk) = query_k pk.
Proof.
  apply pct_encode_id. unfold query_k. apply Forall_app. split; [by repeat constructor|].
  apply b64_forall. intros c Hc. by apply plain_spec in Hc as (_ & _ & ? & _).
Qed.

Lemma plus_id s : Forall (fun b => is x2b b = false) s ->
  map (fun b => if is x2b b then x20 else b) s = s.
Proof. induction 1 as [|b s Hb _ IH]; [done|]. cbn. by rewrite Hb, IH. Qed.

Lemma form_decode_plain s : Forall (fun b => plain b = true) s -> form_decode s = s.
Proof.
  intros HF. unfold form_decode.
  assert (map (fun b => if is x2b b then x20 else b) s = s) as ->.
  { induction HF as [|b s Hb _ IH]; [done|]. cbn. apply plain_spec in Hb as (_ & _ & _ & _ & _ & _ & -> & _).
    by rewrite IH. }
  apply pct_decode_id. eapply Forall_impl; [exact HF|]. intros b Hb. plain Hb.
Qed.

Lemma server_key_query p f pk : length pk = 32 ->
  server_key (Url p (Some (query_k pk)) f) = Ok pk.
Proof.
  intros Hl. unfold server_key, query_pairs. cbn [u_query].
  assert (split_on x26 (query_k pk) = [query_k pk]) as ->.
  { apply split_on_none. unfold query_k. apply Forall_app. split; [by repeat constructor|].
    apply b64_forall. intros c Hc. plain Hc. }
  cbn [List.filter]. assert (beq (query_k pk) [] = false) as -> by (by apply beq_false).
  cbn [negb map find].
  assert (pair_of (query_k pk) = (str "k", to_b64url pk)) as ->.
  { unfold pair_of, query_k. change (str "k=" ++ ?x) with ([x6b] ++ x3d :: x).
    rewrite cut_app by (by repeat constructor). cbn [tail].
    rewrite (form_decode_plain (to_b64url pk)) by apply b64_plain. done. }
  cbn [fst]. change (beq (str "k") (str "k")) with true. cbv iota.
  unfold sized_from_str. rewrite from_to_b64url. cbn [rbind]. rewrite Hl. done.
Qed.

Lemma generated_parse P pk : length pk = 32 ->
  Forall (fun b => is quest b = false /\ is hash b = false) P ->
  parse_rest ((slash :: P) ++ str "?k=" ++ to_b64url pk)
  = Some (Url (Some (path_segs [] (split_on slash P))) (Some (query_k pk)) None).
Proof.
  intros Hl HP. unfold parse_rest. cbn [app cut]. change (is slash slash) with true. cbn [orb].
  change (slash :: P ++ str "?k=" ++ to_b64url pk) with ((slash :: P) ++ quest :: query_k pk).
  rewrite cut_app; [|constructor; [done|]|done].
  2: { eapply Forall_impl; [exact HP|]. intros b [H1 H2]. by rewrite H1, H2. }
  rewrite cut_all; [by rewrite query_k_id|]. constructor; [done|]. unfold query_k. apply Forall_app.
  split; [by repeat constructor|]. apply b64_forall. intros c Hc. by apply plain_spec in Hc as (_ & _ & _ & ? & _).
Qed.

Lemma forall_filter {A} (P : A -> Prop) f l : Forall P l -> Forall P (List.filter f l).
Proof. induction 1 as [|x l Hx _ IH]; cbn; [constructor|]. destruct (f x); [by constructor|done]. Qed.

Lemma not_in_is c l : c ∉ l -> Forall (fun b => is c b = false) l.
Proof. intros H. apply Forall_forall. intros x Hx. apply is_false. by intros ->. Qed.

(** The key is found in the URL of a generated configuration whenever the path of the
    directory has no question mark or number sign.  Missing for the full property: paths that
    do ([C45_question_refuted], [C45_number_sign_refuted]). *)
Theorem C45_key_in_url_partial :
  forall d pk, utf8 (slash :: d) = true -> quest ∉ d -> hash ∉ d -> length pk = 32 ->
    exists u, generated_url (slash :: d) pk = Some u /\ server_key u = Ok pk.
Proof.
  intros d pk Hu Hq Hh Hl. unfold generated_url. rewrite Hu. unfold parse_url.
  rewrite generated_text by done. destruct (take_scheme (List.filter (fun b => negb (tab_nl b))
    (push (slash :: d) (str "socket")) ++ str "?k=" ++ to_b64url pk)) as [-> ->].
  rewrite beq_refl. destruct (push_slash d (str "socket")) as (sep & -> & Hsep).
  cbn [List.filter]. change (negb (tab_nl slash)) with true. cbv iota.
  rewrite generated_parse; [|done|].
  - eexists. split; [reflexivity|]. by apply server_key_query.
  - apply forall_filter. apply Forall_app. split; [apply Forall_and; split; by apply not_in_is|].
    destruct Hsep as [->| ->]; by repeat constructor.
Qed.
Print Assumptions C45_key_in_url_partial.

Lemma server_key_none p q f :
  Forall (fun s => (pair_of s).1 <> str "k") (split_on x26 q) ->
  server_key (Url p (Some q) f) = Err (str "no server_pub_key on connection_url").
Proof.
  intros HF. unfold server_key, query_pairs. cbn [u_query].
  assert (find (fun kv => beq kv.1 (str "k"))
    (map pair_of (List.filter (fun s => negb (beq s [])) (split_on x26 q))) = None) as ->; [|done].
  induction HF as [|s l Hs _ IH]; [done|]. cbn [List.filter]. destruct (negb (beq s [])); [|done].
  cbn [map find]. apply beq_false in Hs. by rewrite Hs.
Qed.

(** False of other paths.  A question mark in the path begins the query there: with nothing
    after it that separates names from values, no key is found. *)
Theorem C45_question_refuted :
  forall a b pk, utf8 (slash :: a ++ quest :: b) = true -> quest ∉ a -> hash ∉ a ->
    Forall (fun c => plain c = true \/ c = slash) b -> length pk = 32 ->
    exists u, generated_url (slash :: a ++ quest :: b) pk = Some u
      /\ server_key u = Err (str "no server_pub_key on connection_url").
Proof.
  intros a b pk Hu Hq Hh Hb Hl. unfold generated_url. rewrite Hu. unfold parse_url.
  rewrite generated_text by done. destruct (take_scheme (List.filter (fun b => negb (tab_nl b))
    (push (slash :: a ++ quest :: b) (str "socket")) ++ str "?k=" ++ to_b64url pk)) as [-> ->].
  rewrite beq_refl. destruct (push_slash (a ++ quest :: b) (str "socket")) as (sep & -> & Hsep).
  set (B := b ++ sep ++ str "socket").
  assert (Forall (fun c => plain c = true \/ c = slash) B) as HB.
  { apply Forall_app. split; [done|].
    destruct Hsep as [->| ->]; repeat (constructor; [first [by left|by right]|]); constructor. }
  assert (List.filter (fun b => negb (tab_nl b)) (slash :: (a ++ quest :: b) ++ sep ++ str "socket")
    = slash :: List.filter (fun b => negb (tab_nl b)) a ++ quest :: B) as ->.
  { rewrite <- app_assoc. change ((quest :: b) ++ sep ++ str "socket") with (quest :: B).
    cbn [List.filter]. change (negb (tab_nl slash)) with true. cbv iota. f_equal.
    rewrite List.filter_app. f_equal. cbn [List.filter]. change (negb (tab_nl quest)) with true. cbv iota. f_equal.
    apply filter_all. eapply Forall_impl; [exact HB|]. intros c [Hc| ->]; [|done].
    apply plain_spec in Hc as (_ & -> & _). done. }
  set (A := List.filter (fun b => negb (tab_nl b)) a).
  assert (Forall (fun b => is quest b = false /\ is hash b = false) A) as HA.
  { apply forall_filter, Forall_and; split; by apply not_in_is. }
  clearbody A B. clear Hsep. set (Q := B ++ str "?k=" ++ to_b64url pk).
  assert (parse_rest ((slash :: A ++ quest :: B) ++ str "?k=" ++ to_b64url pk)
    = Some (Url (Some (path_segs [] (split_on slash A))) (Some (pct_encode esc_query Q)) None)) as ->.
  { unfold parse_rest. cbn [app cut]. change (is slash slash) with true. cbn [orb].
    assert (slash :: (A ++ quest :: B) ++ str "?k=" ++ to_b64url pk = (slash :: A) ++ quest :: Q) as ->.
    { unfold Q. cbn. f_equal. by rewrite <- app_assoc. }
    rewrite cut_app; [|constructor; [done|]|done].
    2: { eapply Forall_impl; [exact HA|]. intros c [H1 H2]. by rewrite H1, H2. }
    rewrite cut_all; [done|]. constructor; [done|]. unfold Q. apply Forall_app. split.
    - eapply Forall_impl; [exact HB|]. intros c [Hc| ->]; [plain Hc|done].
    - apply Forall_app. split; [by repeat constructor|]. apply b64_forall. intros c Hc. plain Hc. }
  eexists. split; [reflexivity|].
  assert (Forall (fun c => plain c = true \/ c = slash \/ c = quest \/ c = x3d) Q) as HQ.
  { unfold Q. apply Forall_app. split; [eapply Forall_impl; [exact HB|]; intros c; cbv beta; tauto|].
    apply Forall_app. split; [|apply b64_forall; intros c; cbv beta; tauto].
    constructor; [tauto|]. constructor; [by left|]. constructor; [tauto|]. constructor. }
  assert (pct_encode esc_query Q = Q) as ->.
  { apply pct_encode_id. eapply Forall_impl; [exact HQ|]. intros c [Hc|[->|[->| ->]]]; [plain Hc|done..]. }
  apply server_key_none. rewrite split_on_none.
  2: { eapply Forall_impl; [exact HQ|]. intros c [Hc|[->|[->| ->]]]; [plain Hc|done..]. }
  constructor; [|constructor]. unfold pair_of.
  assert (Q = (B ++ [quest; x6b]) ++ x3d :: to_b64url pk) as ->
    by (unfold Q; by rewrite <- app_assoc).
  rewrite cut_app; [|apply Forall_app; split; [|by repeat constructor]|done].
  2: { eapply Forall_impl; [exact HB|]. intros c [Hc| ->]; [plain Hc|done]. }
  cbn [fst]. unfold form_decode.
  assert (map (fun b => if is x2b b then x20 else b) (B ++ [quest; x6b]) = B ++ [quest; x6b]) as ->.
  { rewrite map_app. f_equal. apply plus_id. eapply Forall_impl; [exact HB|].
    intros c [Hc| ->]; [plain Hc|done]. }
  rewrite pct_decode_id.
  - intros E. apply (f_equal length) in E. rewrite app_length in E. cbn in E. lia.
  - apply Forall_app. split; [|by repeat constructor]. eapply Forall_impl; [exact HB|].
    intros c [Hc| ->]; [plain Hc|done].
Qed.
Print Assumptions C45_question_refuted.

(** A number sign in the path makes all that follows a fragment. *)
Theorem C45_number_sign_refuted :
  forall a b pk, utf8 (slash :: a ++ hash :: b) = true -> quest ∉ a -> hash ∉ a -> length pk = 32 ->
    exists u, generated_url (slash :: a ++ hash :: b) pk = Some u
      /\ server_key u = Err (str "no server_pub_key on connection_url").
Proof.
  intros a b pk Hu Hq Hh Hl. unfold generated_url. rewrite Hu. unfold parse_url.
  rewrite generated_text by done. destruct (take_scheme (List.filter (fun b => negb (tab_nl b))
    (push (slash :: a ++ hash :: b) (str "socket")) ++ str "?k=" ++ to_b64url pk)) as [-> ->].
  rewrite beq_refl. destruct (push_slash (a ++ hash :: b) (str "socket")) as (sep & -> & Hsep).
  set (B := b ++ sep ++ str "socket").
  assert (List.filter (fun b => negb (tab_nl b)) (slash :: (a ++ hash :: b) ++ sep ++ str "socket")
    = slash :: List.filter (fun b => negb (tab_nl b)) a ++ hash :: List.filter (fun b => negb (tab_nl b)) B) as ->.
  { rewrite <- app_assoc. change ((hash :: b) ++ sep ++ str "socket") with (hash :: B).
    cbn [List.filter]. change (negb (tab_nl slash)) with true. cbv iota. f_equal.
    rewrite List.filter_app. done. }
  set (A := List.filter (fun b => negb (tab_nl b)) a). set (B' := List.filter _ B).
  assert (Forall (fun b => is quest b = false /\ is hash b = false) A) as HA.
  { apply forall_filter, Forall_and; split; by apply not_in_is. }
  clearbody A B'. unfold parse_rest. cbn [app cut]. change (is slash slash) with true. cbn [orb].
  assert (slash :: (A ++ hash :: B') ++ str "?k=" ++ to_b64url pk
    = (slash :: A) ++ hash :: B' ++ str "?k=" ++ to_b64url pk) as -> by (cbn; by rewrite <- app_assoc).
  rewrite cut_app; [|constructor; [done|]|done].
  2: { eapply Forall_impl; [exact HA|]. intros c [H1 H2]. by rewrite H1, H2. }
  cbn [cut]. change (is hash hash) with true. cbv iota. eexists. split; [reflexivity|]. done.
Qed.
Print Assumptions C45_number_sign_refuted.

(** A URL without a key is refused: with no query, *)
Theorem C45_no_query_refused :
  forall rest u, quest ∉ rest -> parse_url (scheme ++ rest) = Some u ->
    server_key u = Err (str "no server_pub_key on connection_url").
Proof.
  intros rest u Hq. unfold parse_url.
  set (t := List.filter _ _). destruct (beq (take 7 t) scheme); [|done].
  assert (quest ∉ t) as Ht.
  { unfold t. clear -Hq.
    assert (quest ∉ scheme ++ rest) as H.
    { intros [H|H]%elem_of_app; [|done]. apply elem_of_list_In in H. cbn in H.
      repeat destruct H as [H|H]; done. }
    intros Hin. apply elem_of_list_In, filter_In in Hin as [Hin _].
    apply H. apply elem_of_list_In. unfold trim_edges in Hin.
    assert (forall l x, In x (skip_edge l) -> In x l) as Hs.
    { intros l x. induction l as [|b l IH]; cbn; [done|]. destruct (edge b); [|done]. auto. }
    by apply in_rev, Hs, in_rev, Hs in Hin. }
  clearbody t. unfold parse_rest.
  destruct (cut _ (drop 7 t)) as [auth r] eqn:E1. destruct auth; [|done].
  destruct (cut _ r) as [path r'] eqn:E2. destruct (cut (is hash) r') as [q f] eqn:E3.
  intros [= <-]. apply cut_spec in E1 as (E1 & _ & _), E2 as (E2 & _ & H2), E3 as (E3 & H3 & _).
  assert (q = []) as ->; [|done]. destruct q as [|c q]; [done|]. exfalso.
  rewrite E3 in H2. cbn in H2. apply Forall_inv in H3. rewrite H3, orb_false_r in H2.
  apply is_true in H2. apply Ht. rewrite <- (take_drop 7 t), E1, E2, E3, H2. cbn [app].
  apply elem_of_app. right. apply elem_of_app. right. constructor.
Qed.
Print Assumptions C45_no_query_refused.

(** and with other names only. *)
Theorem C45_other_names_refused :
  forall path pairs u,
    Forall (fun b => plain b = true \/ b = slash) path ->
    Forall (fun kv => Forall (fun b => plain b = true) kv.1 /\ Forall (fun b => plain b = true) kv.2
                      /\ kv.1 <> str "k") pairs ->
    parse_url (scheme ++ (slash :: path) ++ quest
      :: concat (map (fun kv => kv.1 ++ str "=" ++ kv.2 ++ str "&") pairs)) = Some u ->
    server_key u = Err (str "no server_pub_key on connection_url").
Proof.
  intros path pairs u Hp HF.
  set (q := concat _).
  assert (Forall (fun b => plain b = true \/ b = x3d \/ b = x26) q) as Hq.
  { unfold q. clear -HF. induction HF as [|[k v] l (Hk & Hv & _) _ IH]; [constructor|]. cbn [map concat fst snd] in *.
    rewrite <- !app_assoc. apply Forall_app. split; [eapply Forall_impl; [exact Hk|]; intros c; cbv beta; tauto|].
    constructor; [tauto|]. apply Forall_app. split; [eapply Forall_impl; [exact Hv|]; intros c; cbv beta; tauto|].
    constructor; [tauto|done]. }
  assert (Forall (fun b => edge b = false /\ tab_nl b = false) (scheme ++ (slash :: path) ++ quest :: q)) as Ht.
  { apply Forall_app. split; [by repeat constructor|]. constructor; [done|]. apply Forall_app. split.
    - eapply Forall_impl; [exact Hp|]. intros b [H| ->]; [plain H|done].
    - constructor; [done|]. eapply Forall_impl; [exact Hq|]. intros b [H|[->| ->]]; [plain H|done..]. }
  unfold parse_url.
  assert (trim_edges (scheme ++ (slash :: path) ++ quest :: q) = scheme ++ (slash :: path) ++ quest :: q) as ->.
  { destruct (exists_last (l := str "nix://" ++ (slash :: path) ++ quest :: q)) as (m & b & E).
    { by destruct (str "nix://"). }
    change (scheme ++ (slash :: path) ++ quest :: q) with (x75 :: str "nix://" ++ (slash :: path) ++ quest :: q).
    rewrite E. apply trim_edges_id; [done|].
    change (scheme ++ (slash :: path) ++ quest :: q) with (x75 :: str "nix://" ++ (slash :: path) ++ quest :: q) in Ht.
    rewrite E in Ht. apply Forall_inv_tail, Forall_app in Ht as [_ Ht]. by apply Forall_inv in Ht as [? _]. }
  rewrite filter_all by (eapply Forall_impl; [exact Ht|]; by intros b [_ ->]).
  destruct (take_scheme ((slash :: path) ++ quest :: q)) as [-> ->]. rewrite beq_refl.
  unfold parse_rest. cbn [app cut]. change (is slash slash) with true. cbn [orb].
  rewrite app_comm_cons, cut_app; [|constructor; [done|]|done].
  2: { eapply Forall_impl; [exact Hp|]. intros b [H| ->]; [|done].
       apply plain_spec in H as (_ & _ & _ & -> & _ & _ & _ & _ & ->). done. }
  rewrite cut_all.
  2: { constructor; [done|]. eapply Forall_impl; [exact Hq|]. intros b [H|[->| ->]]; [plain H|done..]. }
  intros [= <-]. rewrite pct_encode_id.
  2: { eapply Forall_impl; [exact Hq|]. intros b [H|[->| ->]]; [plain H|done..]. }
  apply server_key_none. unfold q. clear -HF.
  induction HF as [|[k v] l (Hk & Hv & Hn) _ IH]; [by repeat constructor|]. cbn [map concat fst snd] in *.
  rewrite <- !app_assoc. change (str "&" ++ ?x) with (x26 :: x).
  assert (forall x, k ++ str "=" ++ v ++ x26 :: x = (k ++ str "=" ++ v) ++ x26 :: x) as ->
    by (intros x; by rewrite <- !app_assoc).
  rewrite split_on_app.
  2: { apply Forall_app. split; [eapply Forall_impl; [exact Hk|]; intros b H; plain H|].
       constructor; [done|]. eapply Forall_impl; [exact Hv|]. intros b H; plain H. }
  constructor; [|exact IH]. unfold pair_of. change (str "=" ++ v) with (x3d :: v).
  rewrite cut_app; [|eapply Forall_impl; [exact Hk|]; intros b H; plain H|done].
  cbn [fst]. by rewrite form_decode_plain.
Qed.
Print Assumptions C45_other_names_refused.

Example C45_ex :
  match generated_url (str "/home/me/keys") (repeat x01 32) with
  | Some u => server_key u = Ok (repeat x01 32)
      /\ url_text u = str "unix:///home/me/keys/socket?k=AQEBAQEBAQEBAQEBAQEBAQEBAQEBAQEBAQEBAQEBAQE"
  | None => False
  end
  /\ match generated_url (str "/home/me/keys?") (repeat x01 32), generated_url (str "/home/#1") (repeat x01 32) with
     | Some u, Some v => is_ok (server_key u) = false /\ is_ok (server_key v) = false
     | _, _ => False
     end
  /\ match parse_url (str "unix:///home/me/keys/socket?key=AQEB&") with
     | Some u => is_ok (server_key u) = false
     | None => False
     end.
Proof. vm_compute. repeat split; reflexivity. Qed.

(** The text of a URL, as written to the configuration file, reads back as the same URL. *)
Definition seg_ok (s : bytes) : Prop :=
  Forall (fun b => esc_path b = false /\ is slash b = false) s
  /\ double_dot s = false /\ single_dot s = false.

Lemma path_segs_ok l acc : l <> [] -> Forall (Forall (fun b => is slash b = false)) l -> Forall seg_ok acc ->
  path_segs acc l <> [] /\ Forall seg_ok (path_segs acc l).
Proof.
  assert (seg_ok []) as H0 by done.
  assert (forall l : list bytes, Forall seg_ok l -> Forall seg_ok (tail l)) as Ht
    by (intros k Hk; destruct Hk; [constructor|done]).
  assert (forall (x : bytes) l, rev (x :: l) <> []) as Hr.
  { intros x k E. apply (f_equal length) in E. rewrite rev_length in E. done. }
  assert (forall (x : bytes) l, seg_ok x -> Forall seg_ok l -> Forall seg_ok (rev (x :: l))) as Hf.
  { intros x k Hx Hk. apply Forall_rev. by constructor. }
  intros Hn HF. revert acc Hn. induction HF as [|s l Hs HF IH]; intros acc Hn Ha; [done|].
  cbn [path_segs].
  destruct (double_dot (pct_encode esc_path s)) eqn:Ed.
  - destruct l as [|t l]; [split; [apply Hr|apply Hf; auto]|]. apply IH; [done|auto].
  - destruct (single_dot (pct_encode esc_path s)) eqn:Es.
    + destruct l as [|t l]; [split; [apply Hr|apply Hf; auto]|]. by apply IH.
    + assert (seg_ok (pct_encode esc_path s)) as Hok.
      { split; [|done]. apply Forall_and. split; [apply pct_encode_clean, good_path|].
        by apply pct_encode_slash. }
      destruct l as [|t l]; [|apply IH; [done|by constructor]].
      cbn [path_segs]. split; [apply Hr|by apply Hf].
Qed.

Lemma path_segs_id l acc : Forall seg_ok l -> path_segs acc l = rev acc ++ l.
Proof.
  intros HF. revert acc. induction HF as [|s l (H1 & H2 & H3) _ IH]; intros acc; cbn [path_segs].
  - by rewrite app_nil_r.
  - rewrite pct_encode_id by (eapply Forall_impl; [exact H1|]; by intros b [? _]).
    rewrite H2, H3, IH. cbn [rev]. by rewrite <- app_assoc.
Qed.

Definition url_ok (u : url) : Prop :=
  match u_path u with None => True | Some l => l <> [] /\ Forall seg_ok l end
  /\ match u_query u with None => True | Some q => Forall (fun b => esc_query b = false) q end
  /\ match u_frag u with None => True | Some f => Forall (fun b => esc_fragment b = false) f end.

Lemma parse_url_ok t u : parse_url t = Some u -> url_ok u.
Proof.
  unfold parse_url. destruct (beq _ _); [|done]. unfold parse_rest.
  destruct (cut _ (drop 7 _)) as [auth r]. destruct auth; [|done].
  destruct (cut _ r) as [path r']. destruct (cut (is hash) r') as [q f]. intros [= <-].
  split; [|split]; cbn [u_path u_query u_frag].
  - destruct path as [|c p]; [done|]. apply path_segs_ok; [apply split_on_ne|apply split_on_free|constructor].
  - destruct q; [done|]. apply pct_encode_clean, good_query.
  - destruct f; [done|]. apply pct_encode_clean, good_fragment.
Qed.

Lemma esc_base_edge b : esc_base b = false -> edge b = false /\ tab_nl b = false.
Proof.
  unfold esc_base, edge, tab_nl. intros [H _]%orb_false_iff. split; [done|].
  assert (32 < nb b)%N as Hb by lia.
  assert (forall c, (nb c <= 32)%N -> is c b = false) as Hc.
  { intros c Hc. apply is_false. intros ->. lia. }
  rewrite !Hc; done.
Qed.

Lemma esc_path_spec b : esc_path b = false ->
  (edge b = false /\ tab_nl b = false) /\ is quest b = false /\ is hash b = false.
Proof.
  unfold esc_path. intros [H1 H2]%orb_false_iff. split; [by apply esc_base_edge|].
  unfold any_of in H2. cbn in H2. rewrite !orb_false_iff, !is_false in H2. rewrite !is_false.
  unfold quest, hash. split; intros <-; tauto.
Qed.

Lemma esc_query_spec b : esc_query b = false ->
  (edge b = false /\ tab_nl b = false) /\ is hash b = false.
Proof.
  unfold esc_query. intros [H1 H2]%orb_false_iff. split; [by apply esc_base_edge|].
  unfold any_of in H2. cbn in H2. rewrite !orb_false_iff, !is_false in H2. rewrite is_false.
  unfold hash. intros <-; tauto.
Qed.

Theorem C45_text_reads_back :
  forall t u, parse_url t = Some u -> parse_url (url_text u) = Some u.
Proof.
  intros t u H. apply parse_url_ok in H as (Hp & Hq & Hf). destruct u as [p q f]. cbn [u_path u_query u_frag] in *.
  unfold url_text. cbn [u_path u_query u_frag].
  set (P := match p with None => [] | Some l => concat (map (cons slash) l) end).
  set (Q := match q with None => [] | Some q => quest :: q end).
  set (F := match f with None => [] | Some f => hash :: f end).
  assert (Forall (fun b => (edge b = false /\ tab_nl b = false) /\ is quest b = false /\ is hash b = false) P) as HP.
  { unfold P. destruct p as [l|]; [|constructor]. destruct Hp as [_ Hp].
    induction Hp as [|s l [Hs _] _ IH]; [constructor|]. cbn. constructor; [done|].
    apply Forall_app. split; [|done]. eapply Forall_impl; [exact Hs|]. intros b [H _]. by apply esc_path_spec. }
  assert (Forall (fun b => (edge b = false /\ tab_nl b = false) /\ is hash b = false) Q) as HQ.
  { unfold Q. destruct q as [q|]; [|constructor]. constructor; [done|].
    eapply Forall_impl; [exact Hq|]. intros b H. by apply esc_query_spec. }
  assert (Forall (fun b => edge b = false /\ tab_nl b = false) F) as HF.
  { unfold F. destruct f as [f|]; [|constructor]. constructor; [done|].
    eapply Forall_impl; [exact Hf|]. intros b [H _]%orb_false_iff. by apply esc_base_edge. }
  assert (Forall (fun b => edge b = false /\ tab_nl b = false) (scheme ++ P ++ Q ++ F)) as Hall.
  { apply Forall_app. split; [by repeat constructor|]. apply Forall_app.
    split; [eapply Forall_impl; [exact HP|]; by intros b [? _]|]. apply Forall_app.
    split; [eapply Forall_impl; [exact HQ|]; by intros b [? _]|done]. }
  unfold parse_url.
  assert (trim_edges (scheme ++ P ++ Q ++ F) = scheme ++ P ++ Q ++ F) as ->.
  { destruct (exists_last (l := str "nix://" ++ P ++ Q ++ F)) as (m & b & E); [done|].
    change (scheme ++ P ++ Q ++ F) with (x75 :: str "nix://" ++ P ++ Q ++ F) in *.
    rewrite E in *. apply trim_edges_id; [done|]. apply Forall_inv_tail, Forall_app in Hall as [_ Ht].
    by apply Forall_inv in Ht as [? _]. }
  rewrite filter_all by (eapply Forall_impl; [exact Hall|]; by intros b [_ ->]).
  destruct (take_scheme (P ++ Q ++ F)) as [-> ->]. rewrite beq_refl.
  assert (cut (fun b => is slash b || is quest b || is hash b) (P ++ Q ++ F) = ([], P ++ Q ++ F)) as Hc.
  { unfold P, Q, F. destruct p as [[|s l]|]; [by destruct Hp|done|].
    destruct q; [done|]. by destruct f. }
  unfold parse_rest. rewrite Hc.
  assert (cut (fun b => is quest b || is hash b) (P ++ Q ++ F) = (P, Q ++ F)) as ->.
  { assert (Forall (fun b => is quest b || is hash b = false) P) as HP'.
    { eapply Forall_impl; [exact HP|]. by intros b (_ & -> & ->). }
    unfold Q, F. destruct q; [by apply cut_app|]. destruct f; [by apply cut_app|].
    cbn [app]. rewrite app_nil_r. by apply cut_all. }
  assert (cut (is hash) (Q ++ F) = (Q, F)) as ->.
  { assert (Forall (fun b => is hash b = false) Q) as HQ'.
    { eapply Forall_impl; [exact HQ|]. by intros b [_ ?]. }
    unfold F. destruct f; [by apply cut_app|]. rewrite app_nil_r. by apply cut_all. }
  f_equal. f_equal.
  - unfold P. destruct p as [l|]; [|done]. destruct Hp as [Hn Hp]. destruct l as [|s l]; [done|].
    pose proof (split_slashes (s :: l)) as Hs. cbn [map concat app tail] in *. f_equal.
    rewrite Hs; [|done|].
    + by rewrite path_segs_id.
    + eapply Forall_impl; [exact Hp|]. intros x [Hx _]. eapply Forall_impl; [exact Hx|]. by intros b [_ ?].
  - unfold Q. destruct q; [|done]. by rewrite pct_encode_id.
  - unfold F. destruct f; [|done]. by rewrite pct_encode_id.
Qed.
Print Assumptions C45_text_reads_back.

(** That text is plain: visible ASCII characters only, whatever the path of the directory. *)
Theorem C45_text_plain :
  forall t u, parse_url t = Some u -> Forall (fun b => (33 <= nb b <= 126)%N) (url_text u).
Proof.
  assert (forall b, esc_base b = false -> (33 <= nb b <= 126)%N) as He.
  { intros b. unfold esc_base. intros [H1 H2]%orb_false_iff. apply N.leb_gt in H1, H2. lia. }
  intros t u H. apply parse_url_ok in H as (Hp & Hq & Hf). destruct u as [p q f]. cbn [u_path u_query u_frag] in *.
  unfold url_text. cbn [u_path u_query u_frag]. apply Forall_app_2; [by repeat constructor|]. apply Forall_app_2; [|apply Forall_app_2].
  - destruct p as [l|]; [|constructor]. destruct Hp as [_ Hp]. induction Hp as [|s l [Hs _] _ IH]; [constructor|]. cbn. constructor; [done|].
    apply Forall_app_2; [|done]. eapply Forall_impl; [exact Hs|]. intros b [[Hb _]%orb_false_iff _]. by apply He.
  - destruct q as [q|]; [|constructor]. constructor; [done|]. eapply Forall_impl; [exact Hq|]. intros b [Hb _]%orb_false_iff. by apply He.
  - destruct f as [f|]; [|constructor]. constructor; [done|]. eapply Forall_impl; [exact Hf|]. intros b [Hb _]%orb_false_iff. by apply He.
Qed.
Print Assumptions C45_text_plain.

(** With a delete character and a letter outside ASCII in the path. *)
Example C45_text_plain_ex :
  option_map url_text (generated_url (str "/a" ++ [x7f; xc3; xa4]) (repeat x00 32)) =
  Some (str "unix:///a%7F%C3%A4/socket?k=AAAAAAAAAAAAAAAAAAAAAAAAAAAAAAAAAAAAAAAAAAA").
Proof. by vm_compute. Qed.

(** *** Exactly which paths *)

Lemma split_on_tail c X t : c ∉ t -> exists l x, split_on c X = l ++ [x] /\ split_on c (X ++ t) = l ++ [x ++ t].
Proof.
  intros Ht. induction X as [|b X IH].
  - exists [], []. split; [done|]. by apply split_on_none, not_in_is.
  - destruct IH as (l & x & E1 & E2). cbn [app split_on]. rewrite E1, E2. destruct (is c b).
    + exists ([] :: l), x. done.
    + destruct l as [|y l]; [exists [], (b :: x)|exists ((b :: y) :: l), x]; done.
Qed.

Lemma form_decode_quest r t : form_decode (r ++ quest :: t) = form_decode r ++ quest :: form_decode t.
Proof.
  unfold form_decode. rewrite map_app. cbn [map]. change (if is x2b quest then x20 else quest) with quest.
  generalize (map (fun b => if is x2b b then x20 else b) r). clear r. intros r.
  generalize (map (fun b => if is x2b b then x20 else b) t). clear t. intros t.
  induction r as [r IH] using (induction_ltof1 _ length). unfold ltof in IH.
  destruct r as [|b r]; [done|]. assert (pct_decode (r ++ quest :: t) = pct_decode r ++ quest :: pct_decode t) as E
    by (apply IH; cbn; lia).
  cbn [app pct_decode]. destruct (is x25 b) eqn:Eb; [|by rewrite E].
  destruct r as [|h [|k r]]; cbn [app] in *.
  - rewrite E. by destruct t.
  - rewrite E. change (hex_val quest) with (@None N). by destruct (hex_val h).
  - destruct (hex_val h), (hex_val k); rewrite ?E; try done. f_equal. rewrite IH by (cbn; lia). done.
Qed.

Lemma find_app {A} (f : A -> bool) l1 l2 :
  find f (l1 ++ l2) = match find f l1 with Some x => Some x | None => find f l2 end.
Proof. induction l1 as [|x l IH]; [done|]. cbn. by destruct (f x). Qed.

Lemma b64_no_quest s k : sized_from_str 32 s = Ok k -> quest ∉ s.
Proof.
  unfold sized_from_str. destruct (from_b64url s) as [l|] eqn:E; [|done]. intros _.
  apply to_from_b64url in E as <-. intros Hin.
  pose proof (b64_plain l) as HF. rewrite Forall_forall in HF. apply HF in Hin. done.
Qed.

(** A key found behind an earlier question mark has nothing to do with the server's. *)
Lemma key_elsewhere p f p' f' X pk pk' k :
  server_key (Url p (Some (X ++ quest :: query_k pk)) f) = Ok k ->
  server_key (Url p' (Some (X ++ quest :: query_k pk')) f') = Ok k.
Proof.
  assert (forall pk, x26 ∉ quest :: query_k pk) as Hn.
  { intros q Hin. apply elem_of_cons in Hin as [?|Hin]; [done|]. unfold query_k in Hin.
    apply elem_of_app in Hin as [Hin|Hin].
    - apply elem_of_list_In in Hin. cbn in Hin. naive_solver.
    - pose proof (b64_plain q) as HF. rewrite Forall_forall in HF. apply HF in Hin. done. }
  unfold server_key, query_pairs. cbn [u_query].
  destruct (split_on_tail x26 X _ (Hn pk)) as (l & x & E1 & ->).
  destruct (split_on_tail x26 X _ (Hn pk')) as (l' & x' & E1' & ->).
  rewrite E1 in E1'. apply app_inj_tail in E1' as [<- <-].
  rewrite !List.filter_app, !map_app, !find_app. destruct (find _ (map pair_of (List.filter _ l))) as [[? v]|]; [done|].
  intros H. exfalso. revert H. cbn [List.filter].
  destruct (negb (beq (x ++ quest :: query_k pk) [])); [|done]. cbn [map find].
  unfold pair_of. destruct (cut (is x3d) x) as [n r] eqn:C. apply cut_spec in C as (-> & Cn & Cr).
  destruct r as [|e r].
  - rewrite app_nil_r.
    assert (n ++ quest :: query_k pk = (n ++ [quest; x6b]) ++ x3d :: to_b64url pk) as ->
      by (unfold query_k; by rewrite <- app_assoc).
    rewrite cut_app; [|apply Forall_app; split; [done|by repeat constructor]|done]. cbn [fst].
    rewrite form_decode_quest. destruct (beq _ (str "k")) eqn:B; [|done].
    apply beq_true in B. apply (f_equal length) in B. rewrite app_length in B.
    change (form_decode [x6b]) with [x6b] in B. cbn in B. lia.
  - rewrite <- app_assoc. cbn [app]. rewrite cut_app by done. cbn [fst tail].
    destruct (beq _ _); [|done]. rewrite form_decode_quest. intros H. apply b64_no_quest in H. apply H.
    apply elem_of_app. right. by left.
Qed.

Lemma quest_key a b pk pk' u k : utf8 (slash :: a ++ quest :: b) = true -> quest ∉ a -> hash ∉ a ->
  length pk = 32 -> length pk' = 32 ->
  generated_url (slash :: a ++ quest :: b) pk = Some u -> server_key u = Ok k ->
  exists u', generated_url (slash :: a ++ quest :: b) pk' = Some u' /\ server_key u' = Ok k.
Proof.
  intros Hu Hq Hh Hl Hl'. unfold generated_url. rewrite Hu. unfold parse_url.
  rewrite !generated_text by done. destruct (push_slash (a ++ quest :: b) (str "socket")) as (sep & -> & _).
  set (B := b ++ sep ++ str "socket").
  assert (List.filter (fun b => negb (tab_nl b)) (slash :: (a ++ quest :: b) ++ sep ++ str "socket")
    = slash :: List.filter (fun b => negb (tab_nl b)) a ++ quest :: List.filter (fun b => negb (tab_nl b)) B) as ->.
  { rewrite <- app_assoc. change ((quest :: b) ++ sep ++ str "socket") with (quest :: B).
    cbn [List.filter]. change (negb (tab_nl slash)) with true. cbv iota. f_equal.
    rewrite List.filter_app. done. }
  set (A := List.filter (fun b => negb (tab_nl b)) a). set (B' := List.filter _ B).
  assert (Forall (fun b => is quest b = false /\ is hash b = false) A) as HA.
  { apply forall_filter, Forall_and; split; by apply not_in_is. }
  clearbody A B'.
  assert (forall q, exists f, parse_rest ((slash :: A ++ quest :: B') ++ str "?k=" ++ to_b64url q)
    = Some (Url (Some (path_segs [] (split_on slash A)))
        (Some (pct_encode esc_query (cut (is hash) (B' ++ quest :: query_k q)).1)) f)) as Hparse.
  { intros q. unfold parse_rest. cbn [app cut]. change (is slash slash) with true. cbn [orb].
    change (str "?k=" ++ to_b64url q) with (quest :: query_k q).
    assert (slash :: (A ++ quest :: B') ++ quest :: query_k q
      = (slash :: A) ++ quest :: B' ++ quest :: query_k q) as -> by (cbn; by rewrite <- app_assoc).
    rewrite cut_app; [|constructor; [done|]|done].
    2: { eapply Forall_impl; [exact HA|]. intros c [H1 H2]. by rewrite H1, H2. }
    cbn [cut]. change (is hash quest) with false. cbv iota.
    destruct (cut (is hash) (B' ++ quest :: query_k q)) as [x y]. cbn [fst]. by eexists. }
  assert (forall q, let t := scheme ++ (slash :: A ++ quest :: B') ++ str "?k=" ++ to_b64url q in
    (if beq (take 7 t) scheme then parse_rest (drop 7 t) else None)
    = parse_rest ((slash :: A ++ quest :: B') ++ str "?k=" ++ to_b64url q)) as Hif.
  { intros q t. unfold t. destruct (take_scheme ((slash :: A ++ quest :: B') ++ str "?k=" ++ to_b64url q)) as [-> ->].
    by rewrite beq_refl. }
  pose proof (Hif pk) as I1. pose proof (Hif pk') as I2. cbv zeta in I1, I2. rewrite I1, I2. clear Hif I1 I2.
  destruct (Hparse pk) as [f ->], (Hparse pk') as [f' ->]. clear Hparse.
  intros [= <-] Hk. eexists. split; [reflexivity|]. revert Hk.
  assert (forall q, hash ∉ quest :: query_k q) as Hn.
  { intros q Hin. apply elem_of_cons in Hin as [?|Hin]; [done|]. unfold query_k in Hin.
    apply elem_of_app in Hin as [Hin|Hin].
    - apply elem_of_list_In in Hin. cbn in Hin. naive_solver.
    - pose proof (b64_plain q) as HF. rewrite Forall_forall in HF. apply HF in Hin. done. }
  destruct (cut (is hash) B') as [x y] eqn:C. apply cut_spec in C as (-> & Cx & Cy). destruct y as [|h y].
  - assert (forall q, pct_encode esc_query (cut (is hash) ((x ++ []) ++ quest :: query_k q)).1
      = pct_encode esc_query x ++ quest :: query_k q) as E.
    { intros q. rewrite app_nil_r, cut_all by (apply Forall_app; split; [done|by apply not_in_is]). cbn [fst].
      unfold pct_encode. rewrite map_app, concat_app. f_equal.
      change (concat (map (fun b => if esc_query b then [x25; hex_up (nb b / 16); hex_up (nb b mod 16)]%N else [b])
        (quest :: query_k q))) with (pct_encode esc_query (quest :: query_k q)).
      transitivity (quest :: pct_encode esc_query (query_k q)); [done|]. by rewrite query_k_id. }
    rewrite !E. apply key_elsewhere.
  - assert (forall q, (cut (is hash) ((x ++ h :: y) ++ quest :: query_k q)).1 = x) as E.
    { intros q. rewrite <- app_assoc. cbn [app]. rewrite cut_app by done. done. }
    rewrite !E. done.
Qed.

(** The address carries the key, whatever it is, exactly when the path has neither. *)
Theorem C45_exactly :
  forall d, utf8 (slash :: d) = true ->
    (forall pk, length pk = 32 -> exists u, generated_url (slash :: d) pk = Some u /\ server_key u = Ok pk)
    <-> quest ∉ d /\ hash ∉ d.
Proof.
  intros d Hu. split; [|intros [Hq Hh] pk; by apply C45_key_in_url_partial].
  intros H. destruct (cut (fun b => is quest b || is hash b) d) as [a r] eqn:C.
  apply cut_spec in C as (-> & Ca & Cr).
  assert (quest ∉ a /\ hash ∉ a) as [Hq Hh].
  { rewrite Forall_forall in Ca. split; intros Hin; apply Ca in Hin; cbv beta in Hin; rewrite is_refl in Hin; [done|].
    by rewrite orb_true_r in Hin. }
  destruct r as [|c b]; [by rewrite app_nil_r|exfalso].
  destruct (H (repeat x01 32) eq_refl) as (u & H1 & H2). apply orb_true_iff in Cr as [Cr|Cr]; apply is_true in Cr as <-.
  - destruct (quest_key a b (repeat x01 32) (repeat x02 32) u (repeat x01 32)) as (u' & H1' & H2'); try done.
    destruct (H (repeat x02 32) eq_refl) as (u'' & H1'' & H2''). rewrite H1' in H1''. injection H1'' as <-.
    rewrite H2' in H2''. done.
  - destruct (C45_number_sign_refuted a b (repeat x01 32)) as (u' & H1' & H2'); try done.
    rewrite H1 in H1'. injection H1' as <-. by rewrite H2 in H2'.
Qed.
Print Assumptions C45_exactly.

(** A directory may even be called after the key of another server. *)
Example C45_exactly_ex :
  match generated_url (str "/x?k=AQEBAQEBAQEBAQEBAQEBAQEBAQEBAQEBAQEBAQEBAQE&") (repeat x02 32),
        generated_url (str "/x") (repeat x02 32) with
  | Some u, Some v => server_key u = Ok (repeat x01 32) /\ server_key v = Ok (repeat x02 32)
  | _, _ => False
  end.
Proof. by vm_compute. Qed.

(** ** C52: the socket of a keystore is in its directory *)

(** An absolute path, from its components. *)
Definition abs (comps : list bytes) : bytes :=
  match comps with [] => [slash] | _ => concat (map (cons slash) comps) end.

(** A component of a canonical path: not empty, no slash, not [.] or [..]. *)
Definition comp (s : bytes) : Prop := s <> [] /\ slash ∉ s /\ s <> str "." /\ s <> str "..".

(** And without the characters that mean something in a URL. *)
Definition tame (s : bytes) : Prop := Forall (fun b => b ∉ str "?#%" /\ b ∉ [x09; x0a; x0d]) s.

Lemma push_abs comps name : Forall comp comps -> push (abs comps) name = abs (comps ++ [name]).
Proof.
  intros HF. destruct comps as [|c comps _] using rev_ind; [cbn; by rewrite app_nil_r|].
  apply Forall_app in HF as [_ Hc]. apply Forall_inv in Hc as (Hn & Hs & _).
  destruct (exists_last Hn) as (c' & b & ->).
  assert (is slash b = false) as Hb.
  { apply is_false. intros <-. apply Hs. apply elem_of_app. right. constructor. }
  assert (forall k, k <> [] -> abs k = concat (map (cons slash) k)) as Ha by (by intros []).
  rewrite !Ha by (by destruct comps). unfold push.
  rewrite !map_app, !concat_app. cbn [map concat app]. rewrite !app_nil_r.
  rewrite app_comm_cons, app_assoc, rev_app_distr. cbn [rev app]. rewrite Hb.
  by rewrite <- !app_assoc.
Qed.

Lemma tame_seg s : comp s -> tame s ->
  double_dot (pct_encode esc_path s) = false /\ single_dot (pct_encode esc_path s) = false.
Proof.
  intros (_ & _ & H1 & H2) Ht.
  assert (Forall (fun b => is x25 b = false) s) as Hp.
  { eapply Forall_impl; [exact Ht|]. intros b [Hb _]. apply is_false. intros <-. apply Hb.
    apply (bool_decide_unpack _). by vm_compute. }
  assert (forall t, Forall (fun b => esc_path b = false) t -> s <> pct_decode t ->
    beq (pct_encode esc_path s) t = false) as Hd.
  { intros t _ Hne. apply beq_false. intros E. apply Hne.
    rewrite <- (pct_decode_encode esc_path s Hp), E. done. }
  unfold double_dot, single_dot. cbn [existsb].
  rewrite !Hd; try done; try (by repeat constructor); by vm_compute.
Qed.

Lemma path_segs_tame l acc : Forall (fun s => comp s /\ tame s) l ->
  path_segs acc l = rev acc ++ map (pct_encode esc_path) l.
Proof.
  intros HF. revert acc. induction HF as [|s l [Hc Ht] _ IH]; intros acc; cbn [path_segs map].
  - by rewrite app_nil_r.
  - destruct (tame_seg s Hc Ht) as [-> ->]. rewrite IH. cbn [rev]. by rewrite <- app_assoc.
Qed.

Lemma tame_in (s : bytes) c : tame s -> c ∈ str "?#%" \/ c ∈ [x09; x0a; x0d] -> c ∉ s.
Proof.
  intros Ht Hc Hin. unfold tame in Ht. rewrite Forall_forall in Ht. destruct (Ht c Hin). tauto.
Qed.

Lemma tame_concat l : Forall (fun s => comp s /\ tame s) l -> tame (concat (map (cons slash) l)).
Proof.
  induction 1 as [|s l [_ Hs] _ IH]; [constructor|]. cbn. constructor.
  - split; by apply (bool_decide_unpack _).
  - by apply Forall_app.
Qed.

Lemma generated_segs comps pk :
  utf8 (abs comps) = true -> Forall comp comps -> length pk = 32 ->
  Forall (fun b => is quest b = false /\ is hash b = false) (concat (map (cons slash) comps)) ->
  Forall (fun b => tab_nl b = false) (concat (map (cons slash) comps)) ->
  generated_url (abs comps) pk
  = Some (Url (Some (path_segs [] (comps ++ [str "socket"]))) (Some (query_k pk)) None).
Proof.
  intros Hu HF Hl Hq Ht. unfold generated_url. rewrite Hu. unfold parse_url.
  rewrite generated_text by done. rewrite push_abs by done.
  assert (abs (comps ++ [str "socket"]) = concat (map (cons slash) comps) ++ slash :: str "socket") as Ea.
  { transitivity (concat (map (cons slash) (comps ++ [str "socket"]))); [by destruct comps|].
    by rewrite map_app, concat_app. }
  rewrite Ea. rewrite filter_all.
  2: { apply Forall_app. split; [|by repeat constructor]. eapply Forall_impl; [exact Ht|]. by intros b ->. }
  rewrite <- Ea.
  destruct (take_scheme (abs (comps ++ [str "socket"]) ++ str "?k=" ++ to_b64url pk)) as [-> ->].
  rewrite beq_refl.
  assert (exists P, abs (comps ++ [str "socket"]) = slash :: P /\ split_on slash P = comps ++ [str "socket"])
    as (P & EP & Hs).
  { exists (tail (concat (map (cons slash) (comps ++ [str "socket"])))). split; [by destruct comps|].
    apply split_slashes; [by destruct comps|]. apply Forall_app. split; [|by repeat constructor].
    eapply Forall_impl; [exact HF|]. intros s (_ & Hs & _). by apply not_in_is. }
  rewrite EP, generated_parse; [by rewrite Hs|done|].
  assert (Forall (fun b => is quest b = false /\ is hash b = false) (slash :: P)) as H; [|by inversion H].
  rewrite <- EP, Ea. apply Forall_app. split; [done|]. by repeat constructor.
Qed.

(** The socket path taken from the URL of a generated configuration is [socket] in the
    directory, when no component has a question mark, number sign, percent sign, tab or line
    end in it.  Missing for the full property: the others. *)
Theorem C52_socket_path_partial :
  forall comps pk, utf8 (abs comps) = true -> Forall (fun s => comp s /\ tame s) comps -> length pk = 32 ->
    exists u, generated_url (abs comps) pk = Some u /\ file_path u = Some (abs (comps ++ [str "socket"])).
Proof.
  intros comps pk Hu HF Hl. pose proof (tame_concat comps HF) as Ht.
  rewrite generated_segs; [|done|by eapply Forall_impl; [exact HF|]; intros s [? _]|done| |].
  - eexists. split; [reflexivity|]. unfold file_path. cbn [u_path].
    rewrite path_segs_tame.
    2: { apply Forall_app. split; [done|]. constructor; [|constructor].
         split; [|repeat constructor; by apply (bool_decide_unpack _)].
         split; [done|]. split; [by apply (bool_decide_unpack _)|done]. }
    cbn [rev app].
    assert (concat (map (fun s => slash :: pct_decode s) (map (pct_encode esc_path) (comps ++ [str "socket"])))
            = abs (comps ++ [str "socket"])) as ->.
    { transitivity (concat (map (cons slash) (comps ++ [str "socket"]))); [|by destruct comps].
      f_equal. rewrite map_map. apply map_ext_in. intros s Hs. f_equal. apply pct_decode_encode.
      apply in_app_or in Hs as [Hs|[<-|[]]]; [|by repeat constructor].
      rewrite Forall_forall in HF. apply elem_of_list_In, HF in Hs as [_ Hs].
      apply not_in_is, tame_in; [done|]. left. by apply (bool_decide_unpack _). }
    assert (abs (comps ++ [str "socket"]) = concat (map (cons slash) comps) ++ slash :: str "socket") as ->.
    { transitivity (concat (map (cons slash) (comps ++ [str "socket"]))); [by destruct comps|].
      by rewrite map_app, concat_app. }
    f_equal. rewrite rev_app_distr. done.
  - apply Forall_and. split; apply not_in_is, tame_in; try done; left; by apply (bool_decide_unpack _).
  - eapply Forall_impl; [exact Ht|]. intros b [_ Hb]. unfold tab_nl.
    assert (forall c, c ∈ [x09; x0a; x0d] -> is c b = false) as Hc.
    { intros c Hc. apply is_false. by intros <-. }
    rewrite !Hc; [done|by apply (bool_decide_unpack _)..].
Qed.
Print Assumptions C52_socket_path_partial.

(** False of percent signs: a component [%2e%2e] goes to the parent of the directory above. *)
Theorem C52_leaves_directory_refuted :
  forall comps last pk,
    Forall (fun s => comp s /\ tame s) comps -> comp last -> tame last -> length pk = 32 ->
    utf8 (abs (comps ++ [last; str "%2e%2e"])) = true ->
    comp (str "%2e%2e")
    /\ exists u, generated_url (abs (comps ++ [last; str "%2e%2e"])) pk = Some u
         /\ file_path u = Some (abs (comps ++ [str "socket"])).
Proof.
  intros comps last pk HF Hlc Hlt Hl Hu. split.
  { split; [done|]. split; [by apply (bool_decide_unpack _)|done]. }
  assert (Forall (fun s => comp s /\ tame s) (comps ++ [last])) as HF'.
  { apply Forall_app. split; [done|]. constructor; [done|constructor]. }
  assert (comps ++ [last; str "%2e%2e"] = (comps ++ [last]) ++ [str "%2e%2e"]) as E
    by (by rewrite <- app_assoc).
  pose proof (tame_concat _ HF') as Ht.
  rewrite generated_segs; [|done| |done| |].
  - eexists. split; [reflexivity|]. unfold file_path. cbn [u_path].
    assert (forall l acc m, Forall (fun s => comp s /\ tame s) l ->
      path_segs acc (l ++ m) = path_segs (rev (map (pct_encode esc_path) l) ++ acc) m) as Hps.
    { intros l acc m HFl. revert acc. induction HFl as [|s l [Hc Hs] _ IH]; intros acc; [done|].
      cbn [app path_segs map rev]. destruct (tame_seg s Hc Hs) as [-> ->]. rewrite IH.
      by rewrite <- app_assoc. }
    assert ((comps ++ [last; str "%2e%2e"]) ++ [str "socket"]
            = (comps ++ [last]) ++ [str "%2e%2e"; str "socket"]) as -> by (by rewrite <- !app_assoc).
    rewrite (Hps _ _ _ HF').
    rewrite map_app, rev_app_distr. cbn [map rev app].
    change (path_segs (?x :: ?acc) [str "%2e%2e"; str "socket"]) with (rev (str "socket" :: acc)).
    cbn [rev]. rewrite app_nil_r, rev_involutive.
    assert (concat (map (fun s => slash :: pct_decode s) (map (pct_encode esc_path) comps ++ [str "socket"]))
            = abs (comps ++ [str "socket"])) as ->.
    { transitivity (concat (map (cons slash) (comps ++ [str "socket"]))); [|by destruct comps].
      f_equal. rewrite !map_app. f_equal. rewrite map_map. apply map_ext_in. intros s Hs. f_equal.
      apply pct_decode_encode.
      rewrite Forall_forall in HF. apply elem_of_list_In, HF in Hs as [_ Hs].
      apply not_in_is, tame_in; [done|]. left. by apply (bool_decide_unpack _). }
    assert (abs (comps ++ [str "socket"]) = concat (map (cons slash) comps) ++ slash :: str "socket") as ->.
    { transitivity (concat (map (cons slash) (comps ++ [str "socket"]))); [by destruct comps|].
      by rewrite map_app, concat_app. }
    f_equal. rewrite rev_app_distr. done.
  - rewrite E. apply Forall_app. split; [eapply Forall_impl; [exact HF'|]; by intros s [? _]|].
    constructor; [|constructor]. split; [done|]. split; [by apply (bool_decide_unpack _)|done].
  - rewrite E, map_app, concat_app. apply Forall_app. split; [|by repeat constructor].
    apply Forall_and. split; apply not_in_is, tame_in; try done; left; by apply (bool_decide_unpack _).
  - rewrite E, map_app, concat_app. apply Forall_app. split; [|by repeat constructor].
    eapply Forall_impl; [exact Ht|]. intros b [_ Hb]. unfold tab_nl.
    assert (forall c, c ∈ [x09; x0a; x0d] -> is c b = false) as Hc.
    { intros c Hc. apply is_false. by intros <-. }
    rewrite !Hc; [done|by apply (bool_decide_unpack _)..].
Qed.
Print Assumptions C52_leaves_directory_refuted.

(** *** Exactly which directories *)

Definition hex_digit (b : byte) : Prop := b ∈ str "0123456789abcdefABCDEF".

(** Names that stand for themselves in a URL: no question mark, number sign, tab or line end,
    and no percent sign before two hexadecimal digits. *)
Definition stays (s : bytes) : Prop :=
  Forall (fun b => b ∉ str "?#" /\ b ∉ [x09; x0a; x0d]) s
  /\ forall a h k b, s = a ++ x25 :: h :: k :: b -> hex_digit h -> hex_digit k -> False.

Lemma hex_digit_val b : hex_digit b <-> is_Some (hex_val b).
Proof.
  assert (forall c, bool_decide (c ∈ str "0123456789abcdefABCDEF")
    = match hex_val c with Some _ => true | None => false end) as H by (intros c; destruct c; vm_compute; reflexivity).
  unfold hex_digit. specialize (H b). destruct (hex_val b).
  - apply bool_decide_eq_true in H. split; [by eauto|done].
  - apply bool_decide_eq_false in H. split; [done|by intros []].
Qed.

Lemma esc_no_hex b : esc_path b = true -> hex_val b = None.
Proof. destruct b; vm_compute; done. Qed.

Lemma decode_pct r : pct_decode (x25 :: r)
  = match r with
    | h :: k :: r' =>
        match hex_val h, hex_val k with
        | Some x, Some y => bn (16 * x + y)%N :: pct_decode r'
        | _, _ => x25 :: pct_decode r
        end
    | _ => x25 :: pct_decode r
    end.
Proof. by destruct r as [|h [|k r]]. Qed.

Lemma encode_cons b r : pct_encode esc_path (b :: r)
  = (if esc_path b then [x25; hex_up (nb b / 16); hex_up (nb b mod 16)]%N else [b]) ++ pct_encode esc_path r.
Proof. done. Qed.

Lemma decode_hex b r : pct_decode (x25 :: hex_up (nb b / 16) :: hex_up (nb b mod 16) :: r)%N = b :: pct_decode r.
Proof.
  rewrite decode_pct. destruct (nibbles b). rewrite !hex_val_up by done.
  rewrite <- N.div_mod by done. by rewrite bn_nb.
Qed.

(** What the URL writes differently it reads back. *)
Lemma decode_encoded s : pct_decode (pct_encode esc_path s) = pct_decode s.
Proof.
  induction s as [s IH] using (induction_ltof1 _ length). unfold ltof in IH.
  destruct s as [|b r]; [done|]. assert (pct_decode (pct_encode esc_path r) = pct_decode r) as E by (apply IH; cbn; lia).
  rewrite encode_cons. destruct (esc_path b) eqn:Eb.
  - cbn [app]. rewrite decode_hex, E. cbn [pct_decode].
    destruct (is x25 b) eqn:Ep; [|done]. apply is_true in Ep as <-. done.
  - cbn [app]. destruct (is x25 b) eqn:Ep; [|cbn [pct_decode]; by rewrite Ep, E].
    apply is_true in Ep as <-. destruct r as [|h r]; [done|].
    destruct (esc_path h) eqn:Eh.
    { pose proof (esc_no_hex _ Eh) as Hh.
      assert (pct_decode (x25 :: pct_encode esc_path (h :: r)) = x25 :: pct_decode (pct_encode esc_path (h :: r))) as ->.
      { rewrite encode_cons, Eh. cbn [app]. rewrite decode_pct. done. }
      rewrite E, decode_pct. destruct r; [done|]. by rewrite Hh. }
    destruct r as [|k r].
    { rewrite encode_cons, Eh. done. }
    destruct (esc_path k) eqn:Ek.
    { pose proof (esc_no_hex _ Ek) as Hk.
      assert (pct_decode (x25 :: pct_encode esc_path (h :: k :: r)) = x25 :: pct_decode (pct_encode esc_path (h :: k :: r))) as ->.
      { rewrite encode_cons, Eh. rewrite encode_cons, Ek. cbn [app]. rewrite decode_pct.
        change (hex_val x25) with (@None N). by destruct (hex_val h). }
      rewrite E, decode_pct, Hk. by destruct (hex_val h). }
    assert (pct_encode esc_path (h :: k :: r) = h :: k :: pct_encode esc_path r) as Er.
    { rewrite encode_cons, Eh. cbn [app]. rewrite encode_cons, Ek. done. }
    rewrite Er in E |- *. rewrite !decode_pct. destruct (hex_val h), (hex_val k); rewrite ?E; try done.
    f_equal. apply IH. cbn. lia.
Qed.

Lemma decode_length s : length (pct_decode s) <= length s.
Proof.
  induction s as [s IH] using (induction_ltof1 _ length). unfold ltof in IH. destruct s as [|b r]; [done|].
  assert (length (pct_decode r) <= length r) as E by (apply IH; cbn; lia).
  destruct (is x25 b) eqn:Ep; [|cbn [pct_decode]; rewrite Ep; cbn; lia].
  apply is_true in Ep as <-. rewrite decode_pct. destruct r as [|h [|k r]]; try (cbn in *; lia).
  destruct (hex_val h), (hex_val k); try (cbn [length] in *; lia).
  cbn [length]. specialize (IH r). cbn in IH. lia.
Qed.

Lemma decode_short a h k b : hex_digit h -> hex_digit k ->
  length (pct_decode (a ++ x25 :: h :: k :: b)) < length (a ++ x25 :: h :: k :: b).
Proof.
  intros Hh Hk. remember (a ++ x25 :: h :: k :: b) as s eqn:Es. revert a Es.
  induction s as [s IH] using (induction_ltof1 _ length). unfold ltof in IH. intros a Es.
  destruct a as [|c a]; cbn [app] in Es; subst s.
  - rewrite decode_pct. apply hex_digit_val in Hh as [x ->], Hk as [y ->]. cbn [length].
    pose proof (decode_length b). lia.
  - destruct (is x25 c) eqn:Ep.
    2: { cbn [pct_decode]. rewrite Ep. cbn [length].
         pose proof (IH (a ++ x25 :: h :: k :: b) ltac:(cbn; lia) a eq_refl). lia. }
    apply is_true in Ep as <-. rewrite decode_pct.
    destruct (a ++ x25 :: h :: k :: b) as [|h' [|k' r]] eqn:E.
    + by destruct a.
    + destruct a as [|? [|? ?]]; done.
    + pose proof (IH (h' :: k' :: r) ltac:(cbn; lia) a (eq_sym E)) as H.
      pose proof (decode_length r). destruct (hex_val h'), (hex_val k'); cbn [length] in *; lia.
Qed.

Lemma decode_stays s : (forall a h k b, s = a ++ x25 :: h :: k :: b -> hex_digit h -> hex_digit k -> False) ->
  pct_decode s = s.
Proof.
  induction s as [|b r IH]; intros H; [done|].
  assert (pct_decode r = r) as E.
  { apply IH. intros a h k c Er. apply (H (b :: a) h k c). by rewrite Er. }
  destruct (is x25 b) eqn:Ep; [|cbn [pct_decode]; by rewrite Ep, E].
  apply is_true in Ep as <-. rewrite decode_pct. destruct r as [|h [|k r]]; [by rewrite E..|].
  destruct (hex_val h) eqn:Eh, (hex_val k) eqn:Ek; rewrite ?E; try done.
  exfalso. apply (H [] h k r eq_refl); apply hex_digit_val; eauto.
Qed.

(** How long a path is. *)
Definition path_len (l : list bytes) : nat := list_sum (map (fun s => S (length s)) l).

Lemma path_len_cons s l : path_len (s :: l) = S (length s) + path_len l.
Proof. done. Qed.
Lemma path_len_app l m : path_len (l ++ m) = path_len l + path_len m.
Proof. unfold path_len. by rewrite map_app, list_sum_app. Qed.
Lemma path_len_rev l : path_len (rev l) = path_len l.
Proof.
  induction l as [|s l IH]; [done|]. cbn [rev]. rewrite path_len_app, IH, !path_len_cons.
  change (path_len []) with 0. lia.
Qed.

Lemma path_len_split c l : path_len (split_on c l) = S (length l).
Proof.
  induction l as [|b l IH]; [done|]. cbn [split_on]. destruct (is c b).
  - rewrite path_len_cons, IH. done.
  - pose proof (split_on_ne c l). destruct (split_on c l) as [|x xs]; [done|].
    rewrite path_len_cons in *. cbn [length]. lia.
Qed.

Lemma path_segs_len l acc :
  path_len (map pct_decode (path_segs acc l)) <= path_len (map pct_decode acc) + path_len (map pct_decode l).
Proof.
  revert acc. induction l as [|s l IH]; intros acc; cbn [path_segs].
  - rewrite map_rev, path_len_rev. change (path_len (map pct_decode [])) with 0. lia.
  - assert (path_len (map pct_decode (tail acc)) <= path_len (map pct_decode acc)) as Ht.
    { destruct acc; [done|]. cbn [map tail]. rewrite path_len_cons. lia. }
    pose proof (decode_encoded s) as Es.
    assert (forall a, path_len (map pct_decode (a :: acc)) = S (length (pct_decode a)) + path_len (map pct_decode acc)) as Ha by done.
    change (path_len (map pct_decode (s :: l))) with (S (length (pct_decode s)) + path_len (map pct_decode l)).
    destruct (double_dot _).
    { destruct l as [|t l]; [|specialize (IH (tail acc)); lia].
      rewrite map_rev, path_len_rev. cbn [map].
      change (path_len (pct_decode [] :: map pct_decode (tail acc))) with (1 + path_len (map pct_decode (tail acc))). lia. }
    destruct (single_dot _).
    { destruct l as [|t l]; [|specialize (IH acc); lia].
      rewrite map_rev, path_len_rev. cbn [map].
      change (path_len (pct_decode [] :: map pct_decode acc)) with (1 + path_len (map pct_decode acc)). lia. }
    specialize (IH (pct_encode esc_path s :: acc)). rewrite Ha, Es in IH. lia.
Qed.

Lemma path_len_decode l : path_len (map pct_decode l) <= path_len l.
Proof. induction l as [|s l IH]; [done|]. cbn [map]. rewrite !path_len_cons. pose proof (decode_length s). lia. Qed.

Lemma path_len_decode_eq l : path_len (map pct_decode l) = path_len l ->
  Forall (fun s => length (pct_decode s) = length s) l.
Proof.
  induction l as [|s l IH]; [constructor|]. intros E. pose proof (path_len_decode l). pose proof (decode_length s).
  cbn [map] in E. rewrite !path_len_cons in E. constructor; [lia|]. apply IH. lia.
Qed.

Lemma filter_length_eq {A} (f : A -> bool) l : length (List.filter f l) <= length l
  /\ (length (List.filter f l) = length l -> Forall (fun x => f x = true) l).
Proof.
  induction l as [|x l [IH1 IH2]]; [by split; [|constructor]|]. cbn. destruct (f x) eqn:E; cbn; split; try lia.
  intros H. constructor; [done|]. apply IH2. lia.
Qed.

(** The socket is in the directory exactly when every name in its path stands for itself. *)
Theorem C52_exactly :
  forall comps pk, utf8 (abs comps) = true -> Forall comp comps -> length pk = 32 ->
    (exists u, generated_url (abs comps) pk = Some u /\ file_path u = Some (abs (comps ++ [str "socket"])))
    <-> Forall stays comps.
Proof.
  intros comps pk Hu HF Hl.
  assert (abs (comps ++ [str "socket"]) = concat (map (cons slash) comps) ++ slash :: str "socket") as Ea.
  { transitivity (concat (map (cons slash) (comps ++ [str "socket"]))); [by destruct comps|].
    by rewrite map_app, concat_app. }
  split.
  - intros (u & Hg & Hp). unfold generated_url in Hg. rewrite Hu in Hg. unfold parse_url in Hg.
    rewrite generated_text in Hg by done. rewrite push_abs in Hg by done.
    set (F := List.filter (fun b => negb (tab_nl b)) (abs (comps ++ [str "socket"]))) in *.
    destruct (take_scheme (F ++ str "?k=" ++ to_b64url pk)) as [E1 E2]. rewrite E1, E2, beq_refl in Hg. clear E1 E2.
    unfold parse_rest in Hg.
    destruct (cut _ (F ++ str "?k=" ++ to_b64url pk)) as [auth r] eqn:C1.
    destruct auth; [|done]. apply cut_spec in C1 as (C1 & _ & _). cbn [app] in C1. subst r.
    destruct (cut (fun b => is quest b || is hash b) (F ++ str "?k=" ++ to_b64url pk)) as [path r] eqn:C2.
    destruct (cut (is hash) r) as [query frag]. injection Hg as <-.
    apply cut_spec in C2 as (C2 & C3 & _). unfold file_path in Hp. cbn [u_path] in Hp.
    destruct path as [|c p]; [done|].
    set (segs := path_segs [] (split_on slash p)) in Hp.
    set (P := concat (map (fun s => slash :: pct_decode s) segs)) in Hp.
    assert (P = abs (comps ++ [str "socket"])) as EP.
    { rewrite Ea in Hp |- *. destruct (rev P) as [|x [|y [|z t]]]; try congruence.
      destruct (any_of _ _ && _); [|congruence]. injection Hp as Hp. exfalso.
      change (slash :: str "socket") with (str "/socke" ++ [x74]) in Hp. rewrite app_assoc in Hp.
      apply app_inj_tail in Hp as [_ Hp]. done. }
    assert (length P = path_len (map pct_decode segs)) as LP.
    { unfold P. clear. induction segs as [|s l IH]; [done|]. cbn. rewrite app_length, IH. done. }
    pose proof (path_segs_len (split_on slash p) []) as L1.
    pose proof (path_len_decode (split_on slash p)) as L2. pose proof (path_len_split slash p) as L3.
    change (path_len (map pct_decode [])) with 0 in L1. fold segs in L1.
    (* the path is no longer than what was written before the key *)
    assert (exists m, F = (c :: p) ++ m) as [m EF].
    { assert (quest ∉ c :: p) as Hq.
      { intros Hin. rewrite Forall_forall in C3. apply C3 in Hin. cbv beta in Hin. by rewrite is_refl in Hin. }
      change (str "?k=" ++ to_b64url pk) with (quest :: str "k=" ++ to_b64url pk) in C2.
      clearbody F. clear -C2 Hq. revert C2 Hq. generalize (c :: p). intros q. revert F. induction q as [|x q IH]; intros F E Hq.
      - by exists F.
      - destruct F as [|y F]; cbn in E; injection E as <- E; [exfalso; apply Hq; by left|].
        destruct (IH F E) as [m ->]; [intros H; apply Hq; by right|]. by exists m. }
    destruct (filter_length_eq (fun b => negb (tab_nl b)) (abs (comps ++ [str "socket"]))) as [L4 L5].
    change (List.filter (fun b => negb (tab_nl b)) (abs (comps ++ [str "socket"]))) with F in L4, L5.
    pose proof (f_equal length EF) as L6. rewrite app_length in L6. cbn [length] in L6.
    rewrite EP in LP. assert (m = []) as -> by (destruct m; [done|]; cbn [length] in L6; lia).
    rewrite app_nil_r in EF.
    assert (Forall (fun b => tab_nl b = false) (abs (comps ++ [str "socket"]))) as Ht.
    { eapply Forall_impl; [apply L5; cbn [length] in L6; lia|]. cbv beta. intros b. by destruct (tab_nl b). }
    assert (F = abs (comps ++ [str "socket"])) as EF'.
    { apply filter_all. eapply Forall_impl; [exact Ht|]. by intros b ->. }
    rewrite EF' in EF.
    assert (split_on slash p = comps ++ [str "socket"]) as Es.
    { assert (p = tail (concat (map (cons slash) (comps ++ [str "socket"])))) as ->.
      { transitivity (tail (abs (comps ++ [str "socket"]))); [by rewrite EF|]. by destruct comps. }
      apply split_slashes; [by destruct comps|]. apply Forall_app. split; [|by repeat constructor].
      eapply Forall_impl; [exact HF|]. intros s (_ & Hs & _). by apply not_in_is. }
    assert (path_len (map pct_decode (split_on slash p)) = path_len (split_on slash p)) as L7.
    { rewrite EF in LP. cbn [length] in LP. lia. }
    apply path_len_decode_eq in L7. rewrite Es in L7. apply Forall_app in L7 as [L7 _].
    assert (forall s, s ∈ comps -> forall b, b ∈ s -> tab_nl b = false /\ is quest b = false /\ is hash b = false) as Hb.
    { intros s Hs b Hb. assert (b ∈ abs (comps ++ [str "socket"])) as Hin.
      { rewrite Ea. apply elem_of_app. left. apply elem_of_list_In, in_concat. exists (slash :: s).
        split; [by apply in_map, elem_of_list_In|]. right. by apply elem_of_list_In. }
      rewrite Forall_forall in Ht, C3. split; [by apply Ht|]. rewrite EF in Hin. apply C3 in Hin. cbv beta in Hin.
      by apply orb_false_iff in Hin. }
    apply Forall_forall. intros s Hs. split.
    + apply Forall_forall. intros b Hin. destruct (Hb s Hs b Hin) as (H1 & H2 & H3). unfold tab_nl in H1.
      rewrite !orb_false_iff, !is_false in H1. rewrite !is_false in H2, H3. destruct H1 as [[? ?] ?]. split.
      * intros Hm. apply elem_of_list_In in Hm. cbn in Hm. destruct Hm as [?|[?|[]]]; by subst.
      * rewrite !elem_of_cons, elem_of_nil. naive_solver.
    + intros a h k b -> Hh Hk. rewrite Forall_forall in L7. apply L7 in Hs.
      pose proof (decode_short a h k b Hh Hk). lia.
  - intros HS.
    assert (forall s, s ∈ comps -> pct_decode (pct_encode esc_path s) = s) as Hd.
    { intros s Hs. rewrite decode_encoded. apply decode_stays. rewrite Forall_forall in HS. by apply HS. }
    assert (forall b, b ∈ concat (map (cons slash) comps) -> b = slash \/ b ∉ str "?#" /\ b ∉ [x09; x0a; x0d]) as Hb.
    { intros b Hin. apply elem_of_list_In, in_concat in Hin as (t & Ht & Hin). apply in_map_iff in Ht as (s & <- & Hs).
      destruct Hin as [<-|Hin]; [by left|right]. apply elem_of_list_In in Hs, Hin.
      rewrite Forall_forall in HS. destruct (HS s Hs) as [H _]. rewrite Forall_forall in H. by apply H. }
    rewrite generated_segs; [|done..| |].
    + eexists. split; [reflexivity|]. unfold file_path. cbn [u_path].
      assert (path_segs [] (comps ++ [str "socket"]) = map (pct_encode esc_path) (comps ++ [str "socket"])) as ->.
      { assert (forall l acc, Forall comp l -> (forall s, s ∈ l -> pct_decode (pct_encode esc_path s) = s) ->
          path_segs acc l = rev acc ++ map (pct_encode esc_path) l) as Hps.
        { clear. intros l acc HF. revert acc. induction HF as [|s l Hc _ IH]; intros acc Hd; cbn [path_segs map].
          - by rewrite app_nil_r.
          - assert (forall t, s <> pct_decode t -> beq (pct_encode esc_path s) t = false) as Hn.
            { intros t Hne. apply beq_false. intros E. apply Hne. rewrite <- E. symmetry. apply Hd. by left. }
            destruct Hc as (_ & _ & H1 & H2).
            assert (double_dot (pct_encode esc_path s) = false) as ->.
            { unfold double_dot. cbn [existsb]. rewrite !Hn; try done; by vm_compute. }
            assert (single_dot (pct_encode esc_path s) = false) as ->.
            { unfold single_dot. cbn [existsb]. rewrite !Hn; try done; by vm_compute. }
            rewrite IH; [cbn [rev]; by rewrite <- app_assoc|]. intros t Ht. apply Hd. by right. }
        apply (Hps _ []).
        - apply Forall_app. split; [done|]. constructor; [|constructor].
          split; [done|]. split; [by apply (bool_decide_unpack _)|done].
        - intros s [Hs|Hs]%elem_of_app; [by apply Hd|]. apply elem_of_list_singleton in Hs as ->. done. }
      assert (concat (map (fun s => slash :: pct_decode s) (map (pct_encode esc_path) (comps ++ [str "socket"])))
              = abs (comps ++ [str "socket"])) as ->.
      { transitivity (concat (map (cons slash) (comps ++ [str "socket"]))); [|by destruct comps].
        f_equal. rewrite map_map. apply map_ext_in. intros s Hs. f_equal.
        apply in_app_or in Hs as [Hs|[<-|[]]]; [|done]. by apply Hd, elem_of_list_In. }
      rewrite Ea. f_equal. rewrite rev_app_distr. done.
    + apply Forall_forall. intros b Hin. destruct (Hb b Hin) as [->|[H _]]; [done|].
      split; apply is_false; intros <-; apply H; by apply (bool_decide_unpack _).
    + apply Forall_forall. intros b Hin. destruct (Hb b Hin) as [->|[_ H]]; [done|].
      unfold tab_nl. rewrite !orb_false_iff, !is_false.
      repeat split; intros <-; apply H; by apply (bool_decide_unpack _).
Qed.
Print Assumptions C52_exactly.

(** Half a percent sign is harmless, a whole one is not. *)
Example C52_exactly_ex :
  Forall stays [str "100%"; str "50%g"]
  /\ match generated_url (abs [str "100%"; str "50%g"]) (repeat x01 32) with
     | Some u => file_path u = Some (str "/100%/50%g/socket")
     | None => False
     end
  /\ ~ Forall stays [str "a%41"].
Proof.
  assert (forall (a : bytes) h k b l, l = a ++ x25 :: h :: k :: b ->
    existsb (fun n => match drop n l with c :: h :: k :: _ => is x25 c && bool_decide (hex_digit h) && bool_decide (hex_digit k) | _ => false end)
      (seq 0 (length l)) = false -> hex_digit h -> hex_digit k -> False) as H.
  { intros a h k b l -> E Hh Hk.
    assert (existsb (fun n => match drop n (a ++ x25 :: h :: k :: b) with
      c :: h :: k :: _ => is x25 c && bool_decide (hex_digit h) && bool_decide (hex_digit k) | _ => false end)
      (seq 0 (length (a ++ x25 :: h :: k :: b))) = true); [|congruence].
    apply existsb_exists. exists (length a). rewrite drop_app. split.
    - apply in_seq. rewrite app_length. cbn. lia.
    - by rewrite is_refl, !bool_decide_eq_true_2. }
  split; [|split].
  - repeat constructor; try (by apply (bool_decide_unpack _)); intros a h k b E; apply (H a h k b _ E); by vm_compute.
  - by vm_compute.
  - intros HF. apply Forall_inv in HF as [_ HF]. apply (HF (str "a") x34 x31 [] eq_refl); by apply (bool_decide_unpack _).
Qed.

Example C52_ex :
  Forall (fun s => comp s /\ tame s) [str "home"; str "my keys"]
  /\ match generated_url (abs [str "home"; str "my keys"]) (repeat x01 32) with
     | Some u => url_text u = str "unix:///home/my%20keys/socket?k=AQEBAQEBAQEBAQEBAQEBAQEBAQEBAQEBAQEBAQEBAQE"
         /\ file_path u = Some (str "/home/my keys/socket")
     | None => False
     end
  /\ match generated_url (abs [str "home"; str "keys"; str "%2e%2e"]) (repeat x01 32) with
     | Some u => file_path u = Some (str "/home/socket")
     | None => False
     end
  (* a percent sign with two digits, and a line end *)
  /\ match generated_url (str "/a%41") (repeat x01 32), generated_url (str "/a" ++ [x0a] ++ str "b") (repeat x01 32) with
     | Some u, Some v => file_path u = Some (str "/aA/socket") /\ file_path v = Some (str "/ab/socket")
     | _, _ => False
     end.
Proof.
  split.
  - repeat constructor; try done; by apply (bool_decide_unpack _).
  - vm_compute. repeat split; reflexivity.
Qed.
