(** * JsonText: what JSON texts are (RFC 8259), and that the reader reads just these *)

From Verif Require Import Base Utf8 Base64 ConnUrl Fallback Json PropertiesUrl.

(** ** The grammar *)

(** Specification of what [lair_server.rs:279-296] reads. *)
Definition white (w : bytes) : Prop := Forall (fun b => b ∈ [x20; x09; x0a; x0d]) w.

(** Two-character escapes: the letter and what it stands for.
    Specification of what [lair_server.rs:279-296] reads. *)
Definition two_char : list (byte * byte) :=
  [(x22, x22); (x5c, x5c); (x2f, x2f); (x62, x08); (x66, x0c); (x6e, x0a); (x72, x0d); (x74, x09)].

(** What stands between the quotes of a string. Specification of what [lair_server.rs:279-296] reads. *)
Inductive stext : list unit16 -> bytes -> Prop :=
| S_end : stext [] []
| S_raw b s t : (32 <= nb b)%N -> b <> x22 -> b <> x5c -> stext s t -> stext (Raw b :: s) (b :: t)
| S_two c x s t : (c, x) ∈ two_char -> stext s t -> stext (Raw x :: s) (x5c :: c :: t)
| S_hex p q u v a b c d s t :
    hex_val p = Some a -> hex_val q = Some b -> hex_val u = Some c -> hex_val v = Some d -> stext s t ->
    stext (Esc (4096 * a + 256 * b + 16 * c + d)%N :: s) (x5c :: x75 :: p :: q :: u :: v :: t).

(** [-? (0 | [1-9][0-9]* ) (. [0-9]+)? ([eE] [+-]? [0-9]+)?] *)
Definition digits (l : bytes) : Prop := Forall (fun b => digit b = true) l.
(** Specification of what [lair_server.rs:279-296] reads. *)
Definition number_text (l : bytes) : Prop :=
  exists sign int frac exp, l = sign ++ int ++ frac ++ exp
    /\ (sign = [] \/ sign = str "-")
    /\ (int = str "0" \/ exists d r, int = d :: r /\ d <> x30 /\ digits int)
    /\ (frac = [] \/ exists f, frac = str "." ++ f /\ f <> [] /\ digits f)
    /\ (exp = [] \/ exists e s f, exp = e :: s ++ f /\ (e = x65 \/ e = x45)
          /\ (s = [] \/ s = str "+" \/ s = str "-") /\ f <> [] /\ digits f).

(** Specification of what [lair_server.rs:279-296] reads. *)
Inductive jtext : json -> bytes -> Prop :=
| T_null : jtext JNull (str "null")
| T_true : jtext (JBool true) (str "true")
| T_false : jtext (JBool false) (str "false")
| T_num l : number_text l -> jtext (JNum l) l
| T_str s t : stext s t -> jtext (JStr s) (x22 :: t ++ [x22])
| T_arr0 w : white w -> jtext (JArr []) (x5b :: w ++ [x5d])
| T_arr l t : items l t -> jtext (JArr l) (x5b :: t ++ [x5d])
| T_obj0 w : white w -> jtext (JObj []) (x7b :: w ++ [x7d])
| T_obj l t : members l t -> jtext (JObj l) (x7b :: t ++ [x7d])
with items : list json -> bytes -> Prop :=
| I_one v t w w' : jtext v t -> white w -> white w' -> items [v] (w ++ t ++ w')
| I_more v t w w' l ts : jtext v t -> white w -> white w' -> items l ts ->
    items (v :: l) (w ++ t ++ w' ++ x2c :: ts)
with members : list (list unit16 * json) -> bytes -> Prop :=
| M_one k kt v t w1 w2 w3 w4 : stext k kt -> jtext v t -> white w1 -> white w2 -> white w3 -> white w4 ->
    members [(k, v)] (w1 ++ (x22 :: kt ++ [x22]) ++ w2 ++ x3a :: w3 ++ t ++ w4)
| M_more k kt v t w1 w2 w3 w4 l ts : stext k kt -> jtext v t -> white w1 -> white w2 -> white w3 -> white w4 ->
    members l ts ->
    members ((k, v) :: l) (w1 ++ (x22 :: kt ++ [x22]) ++ w2 ++ x3a :: w3 ++ t ++ w4 ++ x2c :: ts).

Scheme jtext_mind := Induction for jtext Sort Prop
  with items_mind := Induction for items Sort Prop
  with members_mind := Induction for members Sort Prop.
Combined Scheme jtext_mut from jtext_mind, items_mind, members_mind.

(** A JSON text: a value between blanks. Specification of what [lair_server.rs:279-296] reads. *)
Definition is_json (v : json) (l : bytes) : Prop :=
  exists w t w', l = w ++ t ++ w' /\ white w /\ white w' /\ jtext v t.

(** ** Blanks *)

Lemma ws_spec b : ws b = true <-> b ∈ [x20; x09; x0a; x0d].
Proof.
  unfold ws. rewrite !orb_true_iff, !is_true, !elem_of_cons, elem_of_nil. naive_solver.
Qed.
Lemma skip_white w l : white w -> skip_ws (w ++ l) = skip_ws l.
Proof. induction 1 as [|b w Hb Hw IH]; [done|]. cbn. by rewrite (proj2 (ws_spec b) Hb). Qed.
Lemma skip_stop b l : ws b = false -> skip_ws (b :: l) = b :: l.
Proof. intros H. cbn. by rewrite H. Qed.
Lemma skip_all w : white w -> skip_ws w = [].
Proof. intros H. rewrite <- (app_nil_r w). by rewrite skip_white. Qed.
Lemma skip_split l : exists w, l = w ++ skip_ws l /\ white w.
Proof.
  induction l as [|b l (w & Hl & Hw)]; [exists []; split; [done|constructor]|].
  cbn. destruct (ws b) eqn:E.
  - exists (b :: w). split; [cbn; by rewrite <- Hl|]. constructor; [by apply ws_spec|done].
  - exists []. split; [done|constructor].
Qed.
Lemma skip_cons l b r : skip_ws l = b :: r -> exists w, l = w ++ b :: r /\ white w.
Proof. intros H. destruct (skip_split l) as (w & Hl & Hw). rewrite H in Hl. by exists w. Qed.
Lemma skip_nil l : skip_ws l = [] -> white l.
Proof. intros H. destruct (skip_split l) as (w & Hl & Hw). rewrite H, app_nil_r in Hl. by subst. Qed.

(** ** Strings *)

Lemma read_str_text s t r : stext s t -> read_str (t ++ x22 :: r) = Some (s, r).
Proof.
  induction 1 as [|b s t Hb Hq Hk Hs IH|c x s t Hc Hs IH|p q u v a b c d s t H1 H2 H3 H4 Hs IH]; [done|..].
  - cbn [app read_str]. unfold quote, backslash.
    rewrite (proj2 (is_false x22 b)), (proj2 (is_false x5c b)) by done.
    destruct (N.ltb_spec (nb b) 32); [lia|]. by rewrite IH.
  - unfold two_char in Hc. rewrite !elem_of_cons, elem_of_nil in Hc.
    destruct_or! Hc; try done; injection Hc as -> ->; cbn; by rewrite IH.
  - cbn [app read_str]. cbn [is quote backslash Byte.eqb].
    change (is quote x5c) with false. change (is backslash x5c) with true. cbn [is].
    change (is quote x75) with false. change (is backslash x75) with false. change (is x2f x75) with false.
    change (is x62 x75) with false. change (is x66 x75) with false. change (is x6e x75) with false.
    change (is x72 x75) with false. change (is x74 x75) with false. change (is x75 x75) with true.
    cbv iota. rewrite H1, H2, H3, H4, IH. done.
Qed.

Lemma read_str_sound n l s r : length l <= n -> read_str l = Some (s, r) ->
  exists t, l = t ++ x22 :: r /\ stext s t.
Proof.
  revert l s r. induction n as [|n IH]; intros l s r Hn H.
  { by destruct l; [|cbn in Hn; lia]. }
  destruct l as [|b l]; [done|]. cbn [read_str] in H. cbn [length] in Hn.
  destruct (is quote b) eqn:E1.
  { injection H as <- <-. apply is_true in E1 as <-. exists []. split; [done|constructor]. }
  destruct (is backslash b) eqn:E2.
  - apply is_true in E2 as <-. destruct l as [|c l]; [done|]. cbn [length] in Hn.
    assert (forall x, (c, x) ∈ two_char ->
      match read_str l with Some (s, r) => Some (Raw x :: s, r) | None => None end = Some (s, r) ->
      exists t, backslash :: c :: l = t ++ x22 :: r /\ stext s t) as Hlit.
    { intros x Hx. destruct (read_str l) as [[s' r']|] eqn:E; [|done]. intros [= <- <-].
      apply IH in E as (t & -> & Ht); [|lia].
      exists (backslash :: c :: t). split; [done|]. by constructor. }
    repeat match type of H with
    | (if is ?k c then match read_str l with _ => _ end else _) = _ =>
        let E := fresh "E" in destruct (is k c) eqn:E;
        [apply is_true in E as <-; eapply Hlit; [|exact H]; unfold two_char; set_solver|]
    end.
    destruct (is x75 c) eqn:Eu; [|done]. apply is_true in Eu as <-.
    destruct l as [|p [|q [|u [|v l]]]]; try done.
    destruct (hex_val p) eqn:F1; [|done]. destruct (hex_val q) eqn:F2; [|done].
    destruct (hex_val u) eqn:F3; [|done]. destruct (hex_val v) eqn:F4; [|done].
    destruct (read_str l) as [[s' r']|] eqn:Er; [|done]. injection H as <- <-.
    cbn [length] in Hn. apply IH in Er as (t & -> & Ht); [|lia].
    exists (x5c :: x75 :: p :: q :: u :: v :: t). split; [done|]. by constructor.
  - destruct (N.ltb_spec (nb b) 32); [done|].
    destruct (read_str l) as [[s' r']|] eqn:E; [|done]. injection H as <- <-.
    apply IH in E as (t & -> & Ht); [|lia]. apply is_false in E1, E2.
    exists (b :: t). split; [done|]. constructor; try done; by apply not_eq_sym.
Qed.

(** ** Numbers *)

Lemma any_of_true s b : any_of s b = true <-> b ∈ s.
Proof.
  unfold any_of. rewrite existsb_exists. split.
  - intros (x & Hx & E). apply is_true in E as ->. by apply elem_of_list_In.
  - intros H. exists b. split; [by apply elem_of_list_In|apply is_refl].
Qed.

Lemma all_digits_spec l : all_digits l = true <-> l <> [] /\ digits l.
Proof.
  unfold all_digits, digits. destruct l as [|b l]; [split; [done|by intros []]|].
  rewrite forallb_forall, Forall_forall. setoid_rewrite elem_of_list_In.
  split; [by intros H|by intros [_ H]].
Qed.

Lemma digits_cut l r : digits l -> match r with [] => True | b :: _ => digit b = false end ->
  cut (fun b => negb (digit b)) (l ++ r) = (l, r).
Proof.
  intros Hl Hr.
  assert (Forall (fun b => negb (digit b) = false) l) as Hl' by (eapply Forall_impl; [exact Hl|]; intros b E; by rewrite E).
  destruct r as [|b r]; [rewrite app_nil_r; by apply cut_all|]. apply cut_app; [done|]. by rewrite Hr.
Qed.

Lemma sign_not_digit b : digit b = true -> any_of (str "+-") b = false.
Proof. destruct b; vm_compute; intros H; congruence. Qed.

(** Specification of what [lair_server.rs:279-296] reads. *)
Definition exp_text (l : bytes) : Prop :=
  l = [] \/ exists e s f, l = e :: s ++ f /\ (e = x65 \/ e = x45)
          /\ (s = [] \/ s = str "+" \/ s = str "-") /\ f <> [] /\ digits f.

Lemma exponent_spec l : exponent l = true <-> exp_text l.
Proof.
  unfold exponent, exp_text. destruct l as [|e r]; [split; [by left|done]|].
  rewrite andb_true_iff, any_of_true. split.
  - intros [He Hr]. right.
    assert (e = x65 \/ e = x45) as He' by (cbn in He; set_solver).
    destruct r as [|s r]; [done|]. destruct (any_of (str "+-") s) eqn:Es.
    + apply any_of_true in Es. apply all_digits_spec in Hr as [Hn Hd].
      exists e, [s], r. split; [done|]. split; [done|]. split; [cbn in Es; set_solver|done].
    + apply all_digits_spec in Hr as [Hn Hd]. exists e, [], (s :: r).
      split; [done|]. split; [done|]. split; [by left|done].
  - intros [H|(e' & s & f & H & He & Hs & Hn & Hd)]; [done|]. injection H as <- ->.
    split; [cbn; set_solver|]. destruct Hs as [->|[->| ->]].
    + destruct f as [|b f]; [done|]. cbn [app]. rewrite sign_not_digit by (by inversion Hd).
      by apply all_digits_spec.
    + cbn. by apply all_digits_spec.
    + cbn. by apply all_digits_spec.
Qed.

Lemma exp_head l : exp_text l -> match l with [] => True | b :: _ => digit b = false /\ is x2e b = false end.
Proof. intros [->|(e & s & f & -> & [-> | ->] & _)]; done. Qed.

(** A number without its sign. *)
Lemma number_spec l : number l = true <-> number_text l.
Proof.
  unfold number_text. fold digits. split.
  - unfold number. intros H.
    assert (exists sign l', l = sign ++ l' /\ (sign = [] \/ sign = str "-")
      /\ match l with b :: r => if is x2d b then r else l | [] => [] end = l') as (sign & l' & -> & Hs & E).
    { destruct l as [|b r]; [exists [], []; auto|]. destruct (is x2d b) eqn:E.
      - apply is_true in E as <-. exists [x2d], r. auto.
      - exists [], (b :: r). auto. }
    rewrite E in H. clear E. destruct (cut _ l') as [i r] eqn:Ec.
    apply cut_spec in Ec as (-> & Hi & Hr). destruct i as [|d i]; [done|].
    apply andb_true_iff in H as [Hz H].
    assert (digits (d :: i)) as Hd by (eapply Forall_impl; [exact Hi|]; intros b Hb; by apply negb_false_iff in Hb).
    assert (d :: i = str "0" \/ exists d' r', d :: i = d' :: r' /\ d' <> x30 /\ digits (d :: i)) as Hint.
    { apply orb_true_iff in Hz as [Hz|Hz].
      - right. exists d, i. apply negb_true_iff, is_false in Hz. split; [done|]. split; [|done]. by apply not_eq_sym.
      - apply beq_true in Hz as ->. destruct (is x30 d) eqn:E.
        + apply is_true in E as <-. by left.
        + right. exists d, []. apply is_false in E. split; [done|]. split; [|done]. by apply not_eq_sym. }
    destruct r as [|b r'].
    { exists sign, (d :: i), [], []. split; [by rewrite !app_nil_r|]. auto. }
    destruct (is x2e b) eqn:E.
    + apply is_true in E as <-. destruct (cut _ r') as [f e] eqn:Ec.
      apply cut_spec in Ec as (-> & Hf & He). apply andb_true_iff in H as [Hne Hexp].
      exists sign, (d :: i), (x2e :: f), e. split; [done|]. split; [done|]. split; [done|]. split.
      * right. exists f. split; [done|]. apply negb_true_iff, beq_false in Hne. split; [done|].
        eapply Forall_impl; [exact Hf|]; intros b Hb; by apply negb_false_iff in Hb.
      * by apply exponent_spec.
    + exists sign, (d :: i), [], (b :: r'). split; [done|]. split; [done|]. split; [done|].
      split; [by left|]. by apply exponent_spec.
  - intros (sign & int & frac & exp & -> & Hs & Hi & Hf & He). fold (exp_text exp) in He.
    unfold number.
    assert (exists d r, int = d :: r /\ digits int /\ (negb (is x30 d) || beq r []) = true) as (d & ir & -> & Hd & Hz).
    { destruct Hi as [->|(d & r & -> & Hne & Hd)].
      - exists x30, []. split; [done|]. split; [by repeat constructor|done].
      - exists d, r. split; [done|]. split; [done|]. apply orb_true_iff. left.
        apply negb_true_iff, is_false. by apply not_eq_sym. }
    assert (is x2d d = false) as Hm.
    { inversion Hd as [|? ? H' ?]. apply is_false. intros <-. done. }
    assert (match sign ++ (d :: ir) ++ frac ++ exp with b :: r => if is x2d b then r else sign ++ (d :: ir) ++ frac ++ exp | [] => [] end
            = (d :: ir) ++ frac ++ exp) as ->.
    { destruct Hs as [->| ->]; [cbn [app]; by rewrite Hm|done]. }
    pose proof (exp_head _ He) as Hh.
    rewrite digits_cut; [|done|].
    + rewrite Hz. cbn [andb]. destruct Hf as [->|(f & -> & Hne & Hf)].
      * cbn [app]. destruct exp as [|b e]; [done|]. destruct Hh as [_ ->]. by apply exponent_spec.
      * change ((str "." ++ f) ++ exp) with (x2e :: f ++ exp). cbv iota beta. rewrite is_refl.
        rewrite digits_cut; [|done|by destruct exp; [|destruct Hh]].
        apply andb_true_iff. split; [by apply negb_true_iff, beq_false|by apply exponent_spec].
    + destruct Hf as [->|(f & -> & Hne & Hf)]; [by destruct exp; [|destruct Hh]|done].
Qed.

Lemma digit_num_char b : digit b = true -> num_char b = true.
Proof. unfold num_char. by intros ->. Qed.
Lemma digits_num l : digits l -> Forall (fun b => num_char b = true) l.
Proof. intros H. eapply Forall_impl; [exact H|]. apply digit_num_char. Qed.

(** The bytes of a number, and its first. *)
Lemma number_chars l : number_text l ->
  Forall (fun b => num_char b = true) l /\ exists b r, l = b :: r /\ (digit b = true \/ b = x2d).
Proof.
  intros (sign & int & frac & exp & -> & Hs & Hi & Hf & He).
  assert (digits int) as Hd.
  { destruct Hi as [->|(d & r & -> & _ & Hd)]; [by repeat constructor|done]. }
  split.
  - rewrite !Forall_app. split_and!.
    + destruct Hs as [->| ->]; by repeat constructor.
    + by apply digits_num.
    + destruct Hf as [->|(f & -> & _ & Hf')]; [constructor|]. constructor; [done|]. by apply digits_num.
    + destruct He as [->|(e & s & f & -> & He' & Hs' & _ & Hf')]; [constructor|].
      constructor; [by destruct He' as [->| ->]|]. apply Forall_app. split; [|by apply digits_num].
      destruct Hs' as [->|[->| ->]]; by repeat constructor.
  - destruct Hs as [->| ->]; [|by exists x2d; eexists; split; [done|right]].
    destruct Hi as [->|(d & r & -> & _ & _)]; [by exists x30; eexists; split; [done|left]|].
    inversion Hd; subst. exists d. eexists. split; [done|by left].
Qed.

Lemma number_first b : digit b = true \/ b = x2d ->
  ws b = false /\ is quote b = false /\ is x5b b = false /\ is x7b b = false /\ is x6e b = false
  /\ is x74 b = false /\ is x66 b = false /\ is x5d b = false /\ is x7d b = false.
Proof. intros [H | ->]; [|done]. destruct b; try (vm_compute in H; congruence); done. Qed.

(** ** Values: every text of a value is read as this value *)

(** What may follow a value. Specification of what [lair_server.rs:279-296] reads. *)
Definition ends (r : bytes) : Prop := match r with [] => True | b :: _ => num_char b = false end.

Lemma white_ends w r : white w -> ends r -> ends (w ++ r).
Proof.
  destruct w as [|b w]; [done|]. intros H _. inversion H as [|? ? Hb ?]; subst. cbn.
  set_unfold in Hb. by destruct_or! Hb; subst.
Qed.

(** The first byte of a value. *)
Lemma jtext_head v t : jtext v t ->
  exists b r, t = b :: r /\ ws b = false /\ is x5d b = false.
Proof.
  destruct 1 as [| | |l Hl|s t Hs|w Hw|l t Hi|w Hw|l t Hm];
    try (by eexists _, _; split; [done|]).
  apply number_chars in Hl as (_ & b & r & -> & Hb). exists b, r.
  destruct (number_first b Hb) as (? & ? & ? & ? & ? & ? & ? & ? & ?). done.
Qed.

Lemma cut_ends l r : Forall (fun b => num_char b = true) l -> ends r ->
  cut (fun b => negb (num_char b)) (l ++ r) = (l, r).
Proof.
  intros Hl Hr.
  assert (Forall (fun b => negb (num_char b) = false) l) as Hl'
    by (eapply Forall_impl; [exact Hl|]; intros b E; by rewrite E).
  destruct r as [|b r]; [rewrite app_nil_r; by apply cut_all|]. apply cut_app; [done|]. cbn in Hr. by rewrite Hr.
Qed.

Lemma read_lit_app w v r : read_lit w v (w ++ r) = Some (v, r).
Proof. unfold read_lit. by rewrite take_app, beq_refl, drop_app. Qed.

(** Unfolding lemmas. *)
Lemma read_val_S n l b r : skip_ws l = b :: r ->
  read_val (S n) l =
    (if is quote b then match read_str r with Some (s, r) => Some (JStr s, r) | None => None end
     else if is x5b b then
       match skip_ws r with
       | c :: r' => if is x5d c then Some (JArr [], r')
                    else match read_items n r with Some (vs, r) => Some (JArr vs, r) | None => None end
       | [] => None
       end
     else if is x7b b then
       match skip_ws r with
       | c :: r' => if is x7d c then Some (JObj [], r')
                    else match read_members n r with Some (ms, r) => Some (JObj ms, r) | None => None end
       | [] => None
       end
     else if is x6e b then read_lit (str "null") JNull (b :: r)
     else if is x74 b then read_lit (str "true") (JBool true) (b :: r)
     else if is x66 b then read_lit (str "false") (JBool false) (b :: r)
     else let (d, r) := cut (fun b => negb (num_char b)) (b :: r) in
          if number d then Some (JNum d, r) else None).
Proof. intros H. cbn [read_val]. by rewrite H. Qed.

Lemma read_items_S n l v r : read_val n l = Some (v, r) ->
  read_items (S n) l =
    match skip_ws r with
    | c :: r => if is x5d c then Some ([v], r)
                else if is x2c c then
                  match read_items n r with Some (vs, r) => Some (v :: vs, r) | None => None end
                else None
    | [] => None
    end.
Proof. intros H. cbn [read_items]. by rewrite H. Qed.

Lemma read_members_S n w1 k kt w2 l v r w3 : white w1 -> stext k kt -> white w2 -> white w3 ->
  read_val n l = Some (v, r) ->
  read_members (S n) (w1 ++ (x22 :: kt ++ [x22]) ++ w2 ++ x3a :: l) =
    match skip_ws r with
    | c :: r => if is x7d c then Some ([(k, v)], r)
                else if is x2c c then
                  match read_members n r with Some (ms, r) => Some ((k, v) :: ms, r) | None => None end
                else None
    | [] => None
    end.
Proof.
  intros H1 Hk H2 H3 Hv. cbn [read_members]. rewrite skip_white by done. cbn [app].
  rewrite skip_stop by done. change (is quote x22) with true. cbv iota beta.
  rewrite <- app_assoc. cbn [app]. rewrite (read_str_text k kt) by done.
  rewrite skip_white by done. rewrite skip_stop by done. change (is x3a x3a) with true. cbv iota beta.
  by rewrite Hv.
Qed.

Lemma members_head l t : members l t -> exists w r, white w /\ t = w ++ x22 :: r.
Proof.
  destruct 1 as [k kt v t w1 w2 w3 w4 Hk Hv H1|k kt v t w1 w2 w3 w4 l ts Hk Hv H1];
    exists w1; eexists; (split; [done|]); cbn [app]; done.
Qed.
Lemma items_head l t : items l t -> exists w b r, white w /\ t = w ++ b :: r /\ ws b = false /\ is x5d b = false.
Proof.
  destruct 1 as [v t w w' Hv H1|v t w w' l ts Hv H1]; apply jtext_head in Hv as (b & r & -> & Hb & Hc);
    exists w, b; eexists; split_and!; try done; cbn [app]; done.
Qed.

Lemma read_complete :
  (forall v t, jtext v t -> forall n w r, white w -> ends r -> 2 * length t + 1 <= n ->
     read_val n (w ++ t ++ r) = Some (v, r))
  /\ (forall l t, items l t -> forall n r, 2 * length t + 2 <= n ->
     read_items n (t ++ x5d :: r) = Some (l, r))
  /\ (forall l t, members l t -> forall n r, 2 * length t + 2 <= n ->
     read_members n (t ++ x7d :: r) = Some (l, r)).
Proof.
  apply jtext_mut.
  - intros n w r Hw Hr Hn. destruct n as [|n]; [lia|].
    erewrite read_val_S by (rewrite skip_white by done; by apply skip_stop). apply (read_lit_app (str "null")).
  - intros n w r Hw Hr Hn. destruct n as [|n]; [lia|].
    erewrite read_val_S by (rewrite skip_white by done; by apply skip_stop). apply (read_lit_app (str "true")).
  - intros n w r Hw Hr Hn. destruct n as [|n]; [lia|].
    erewrite read_val_S by (rewrite skip_white by done; by apply skip_stop). apply (read_lit_app (str "false")).
  - intros l Hl n w r Hw Hr Hn. destruct n as [|n]; [lia|].
    pose proof (proj2 (number_spec l) Hl) as Hnum.
    apply number_chars in Hl as (Hc & b & l' & -> & Hb).
    destruct (number_first b Hb) as (F1 & F2 & F3 & F4 & F5 & F6 & F7 & _).
    erewrite read_val_S by (rewrite skip_white by done; cbn [app]; by apply skip_stop).
    rewrite F2, F3, F4, F5, F6, F7. change (b :: l' ++ r) with ((b :: l') ++ r).
    rewrite cut_ends by done. by rewrite Hnum.
  - intros s t Hs n w r Hw Hr Hn. destruct n as [|n]; [lia|].
    erewrite read_val_S by (rewrite skip_white by done; cbn [app]; by apply skip_stop).
    rewrite <- app_assoc. cbn [app]. change (is quote x22) with true. cbv iota. by rewrite (read_str_text s t).
  - intros w' Hw' n w r Hw Hr Hn. destruct n as [|n]; [lia|].
    erewrite read_val_S by (rewrite skip_white by done; cbn [app]; by apply skip_stop).
    rewrite <- app_assoc. cbn [app].
    change (is quote x5b) with false. change (is x5b x5b) with true. cbv iota.
    rewrite skip_white by done. by rewrite skip_stop by done.
  - intros l t Hi IH n w r Hw Hr Hn. destruct n as [|n]; [lia|].
    erewrite read_val_S by (rewrite skip_white by done; cbn [app]; by apply skip_stop).
    rewrite <- app_assoc. cbn [app].
    change (is quote x5b) with false. change (is x5b x5b) with true. cbv iota.
    destruct (items_head _ _ Hi) as (w0 & b & r0 & H0 & Ht & Hb & Hc).
    assert (exists r1, skip_ws (t ++ x5d :: r) = b :: r1) as [r1 Hsk].
    { rewrite Ht, <- app_assoc, skip_white by done. cbn [app]. rewrite skip_stop by done. by eexists. }
    rewrite Hsk, Hc. rewrite IH; [done|]. cbn [length] in Hn. rewrite app_length in Hn. cbn [length] in Hn. lia.
  - intros w' Hw' n w r Hw Hr Hn. destruct n as [|n]; [lia|].
    erewrite read_val_S by (rewrite skip_white by done; cbn [app]; by apply skip_stop).
    rewrite <- app_assoc. cbn [app].
    change (is quote x7b) with false. change (is x5b x7b) with false. change (is x7b x7b) with true. cbv iota.
    rewrite skip_white by done. by rewrite skip_stop by done.
  - intros l t Hm IH n w r Hw Hr Hn. destruct n as [|n]; [lia|].
    erewrite read_val_S by (rewrite skip_white by done; cbn [app]; by apply skip_stop).
    rewrite <- app_assoc. cbn [app].
    change (is quote x7b) with false. change (is x5b x7b) with false. change (is x7b x7b) with true. cbv iota.
    destruct (members_head _ _ Hm) as (w0 & r0 & H0 & Ht).
    assert (exists r1, skip_ws (t ++ x7d :: r) = x22 :: r1) as [r1 Hsk].
    { rewrite Ht, <- app_assoc, skip_white by done. cbn [app]. rewrite skip_stop by done. by eexists. }
    rewrite Hsk. change (is x7d x22) with false. cbv iota.
    rewrite IH; [done|]. cbn [length] in Hn. rewrite app_length in Hn. cbn [length] in Hn. lia.
  - intros v t w w' Hv IH Hw Hw' n r Hn. destruct n as [|n]; [lia|].
    rewrite !app_length in Hn.
    rewrite <- !app_assoc.
    erewrite read_items_S by (apply IH; [done|by apply white_ends|lia]).
    rewrite skip_white by done. by rewrite skip_stop by done.
  - intros v t w w' l ts Hv IH Hw Hw' Hi IHi n r Hn. destruct n as [|n]; [lia|].
    rewrite ?app_length in Hn. cbn [length] in Hn.
    rewrite <- !app_assoc. cbn [app].
    erewrite read_items_S by (apply IH; [done|by apply white_ends|lia]).
    rewrite skip_white by done. rewrite skip_stop by done.
    change (is x5d x2c) with false. change (is x2c x2c) with true. cbv iota. rewrite IHi; [done|lia].
  - intros k kt v t w1 w2 w3 w4 Hk Hv IH H1 H2 H3 H4 n r Hn. destruct n as [|n]; [lia|].
    rewrite ?app_length in Hn. cbn [length] in Hn. rewrite ?app_length in Hn. cbn [length] in Hn.
    rewrite ?app_length in Hn.
    replace ((w1 ++ (x22 :: kt ++ [x22]) ++ w2 ++ x3a :: w3 ++ t ++ w4) ++ x7d :: r)
      with (w1 ++ (x22 :: kt ++ [x22]) ++ w2 ++ x3a :: (w3 ++ t ++ w4 ++ x7d :: r))
      by (rewrite <- !app_assoc; cbn [app]; rewrite <- !app_assoc; done).
    erewrite (read_members_S n w1 k kt w2 _ _ _ w3); [|done..|apply IH; [done|by apply white_ends|lia]].
    rewrite skip_white by done. by rewrite skip_stop by done.
  - intros k kt v t w1 w2 w3 w4 l ts Hk Hv IH H1 H2 H3 H4 Hm IHm n r Hn. destruct n as [|n]; [lia|].
    rewrite ?app_length in Hn. cbn [length] in Hn. rewrite ?app_length in Hn. cbn [length] in Hn.
    rewrite ?app_length in Hn. cbn [length] in Hn.
    replace ((w1 ++ (x22 :: kt ++ [x22]) ++ w2 ++ x3a :: w3 ++ t ++ w4 ++ x2c :: ts) ++ x7d :: r)
      with (w1 ++ (x22 :: kt ++ [x22]) ++ w2 ++ x3a :: (w3 ++ t ++ w4 ++ x2c :: ts ++ x7d :: r))
      by (rewrite <- !app_assoc; cbn [app]; rewrite <- !app_assoc; cbn [app]; done).
    erewrite (read_members_S n w1 k kt w2 _ _ _ w3); [|done..|apply IH; [done|by apply white_ends|lia]].
    rewrite skip_white by done. rewrite skip_stop by done.
    change (is x7d x2c) with false. change (is x2c x2c) with true. cbv iota. rewrite IHm; [done|lia].
Qed.

(** ** … and only these are *)

Lemma read_lit_sound w v l v' r : read_lit w v l = Some (v', r) -> l = w ++ r /\ v' = v.
Proof.
  unfold read_lit. destruct (beq _ _) eqn:E; [|done]. apply beq_true in E. intros [= <- <-].
  split; [|done]. rewrite <- E at 1. by rewrite take_drop.
Qed.

Lemma read_sound n :
  (forall l v r, read_val n l = Some (v, r) -> exists w t, l = w ++ t ++ r /\ white w /\ jtext v t)
  /\ (forall l vs r, read_items n l = Some (vs, r) -> exists t, l = t ++ x5d :: r /\ items vs t)
  /\ (forall l ms r, read_members n l = Some (ms, r) -> exists t, l = t ++ x7d :: r /\ members ms t).
Proof.
  induction n as [|n (IHv & IHi & IHm)]; [done|]. split_and!.
  - intros l v r H. destruct (skip_ws l) as [|b l'] eqn:E; [cbn in H; by rewrite E in H|].
    rewrite (read_val_S _ _ _ _ E) in H. apply skip_cons in E as (w & -> & Hw).
    enough (exists t, b :: l' = t ++ r /\ jtext v t) as (t & Ht & Hj) by (exists w, t; by rewrite Ht).
    destruct (is quote b) eqn:E1; [apply is_true in E1 as <-|clear E1].
    { destruct (read_str l') as [[s r']|] eqn:E; [|done]. injection H as <- <-.
      eapply read_str_sound in E as (t & -> & Ht); [|done].
      exists (x22 :: t ++ [x22]). split; [cbn; by rewrite <- app_assoc|by constructor]. }
    destruct (is x5b b) eqn:E1; [apply is_true in E1 as <-|clear E1].
    { destruct (skip_ws l') as [|c r'] eqn:E; [done|]. destruct (is x5d c) eqn:Ec.
      - apply is_true in Ec as <-. injection H as <- <-. apply skip_cons in E as (w' & -> & Hw').
        exists (x5b :: w' ++ [x5d]). split; [cbn; by rewrite <- app_assoc|by constructor].
      - destruct (read_items n l') as [[vs r'']|] eqn:Ei; [|done]. injection H as <- <-.
        apply IHi in Ei as (t & -> & Ht). exists (x5b :: t ++ [x5d]).
        split; [cbn; by rewrite <- app_assoc|by constructor]. }
    destruct (is x7b b) eqn:E1; [apply is_true in E1 as <-|clear E1].
    { destruct (skip_ws l') as [|c r'] eqn:E; [done|]. destruct (is x7d c) eqn:Ec.
      - apply is_true in Ec as <-. injection H as <- <-. apply skip_cons in E as (w' & -> & Hw').
        exists (x7b :: w' ++ [x7d]). split; [cbn; by rewrite <- app_assoc|by constructor].
      - destruct (read_members n l') as [[vs r'']|] eqn:Ei; [|done]. injection H as <- <-.
        apply IHm in Ei as (t & -> & Ht). exists (x7b :: t ++ [x7d]).
        split; [cbn; by rewrite <- app_assoc|by constructor]. }
    destruct (is x6e b). { apply read_lit_sound in H as [-> ->]. eexists. split; [done|constructor]. }
    destruct (is x74 b). { apply read_lit_sound in H as [-> ->]. eexists. split; [done|constructor]. }
    destruct (is x66 b). { apply read_lit_sound in H as [-> ->]. eexists. split; [done|constructor]. }
    destruct (cut _ (b :: l')) as [d r'] eqn:Ec. destruct (number d) eqn:En; [|done]. injection H as <- <-.
    apply cut_spec in Ec as (-> & _). exists d. split; [done|]. constructor. by apply number_spec.
  - intros l vs r H. destruct (read_val n l) as [[v r1]|] eqn:Ev; [|cbn in H; by rewrite Ev in H].
    rewrite (read_items_S _ _ _ _ Ev) in H. apply IHv in Ev as (w & t & -> & Hw & Ht).
    destruct (skip_ws r1) as [|c r2] eqn:E; [done|]. apply skip_cons in E as (w' & -> & Hw').
    destruct (is x5d c) eqn:Ec.
    + apply is_true in Ec as <-. injection H as <- <-. exists (w ++ t ++ w').
      split; [by rewrite <- !app_assoc|by constructor].
    + destruct (is x2c c) eqn:Ed; [|done]. apply is_true in Ed as <-.
      destruct (read_items n r2) as [[vs' r3]|] eqn:Ei; [|done]. injection H as <- <-.
      apply IHi in Ei as (ts & -> & Hts). exists (w ++ t ++ w' ++ x2c :: ts).
      split; [by rewrite <- !app_assoc|by constructor].
  - intros l ms r H. cbn [read_members] in H.
    destruct (skip_ws l) as [|q r1] eqn:E; [done|]. apply skip_cons in E as (w1 & -> & H1).
    destruct (is quote q) eqn:Eq; [|done]. apply is_true in Eq as <-.
    destruct (read_str r1) as [[k r2]|] eqn:E; [|done].
    eapply read_str_sound in E as (kt & -> & Hk); [|done].
    destruct (skip_ws r2) as [|c r3] eqn:E; [done|]. apply skip_cons in E as (w2 & -> & H2).
    destruct (is x3a c) eqn:Ec; [|done]. apply is_true in Ec as <-.
    destruct (read_val n r3) as [[v r4]|] eqn:Ev; [|done]. apply IHv in Ev as (w3 & t & -> & H3 & Ht).
    destruct (skip_ws r4) as [|c r5] eqn:E; [done|]. apply skip_cons in E as (w4 & -> & H4).
    destruct (is x7d c) eqn:Ec.
    + apply is_true in Ec as <-. injection H as <- <-.
      exists (w1 ++ (x22 :: kt ++ [x22]) ++ w2 ++ x3a :: w3 ++ t ++ w4).
      split; [|by constructor]. rewrite <- !app_assoc. cbn [app]. by rewrite <- !app_assoc.
    + destruct (is x2c c) eqn:Ed; [|done]. apply is_true in Ed as <-.
      destruct (read_members n r5) as [[ms' r6]|] eqn:Em; [|done]. injection H as <- <-.
      apply IHm in Em as (ts & -> & Hts).
      exists (w1 ++ (x22 :: kt ++ [x22]) ++ w2 ++ x3a :: w3 ++ t ++ w4 ++ x2c :: ts).
      split; [|by constructor]. rewrite <- !app_assoc. cbn [app]. rewrite <- !app_assoc. by cbn [app].
Qed.

(** The reader reads JSON: just the JSON texts, each as what it says. *)
Lemma read_json_spec l v : read_json l = Some v <-> is_json v l.
Proof.
  unfold read_json. split.
  - destruct (read_val _ l) as [[v' r]|] eqn:E; [|done].
    destruct (skip_ws r) as [|? ?] eqn:Er; [|done]. intros [= <-].
    apply (proj1 (read_sound _)) in E as (w & t & -> & Hw & Ht). apply skip_nil in Er.
    by exists w, t, r.
  - intros (w & t & w' & -> & Hw & Hw' & Ht).
    rewrite (proj1 read_complete v t Ht); [by rewrite skip_all|done| |].
    + rewrite <- (app_nil_r w'). by apply white_ends.
    + rewrite !app_length. lia.
Qed.
