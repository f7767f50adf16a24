(** * C46: the comments do not change what a configuration is read as *)

From Verif Require Import Base Base64 Base64Proofs Types ConnUrl PropertiesUrl PidFile PropertiesPid Startup ConfigText.
From Coq Require Import ZifyBool ZifyNat ZifyN.

Local Arguments is : simpl never.

(** ** Lines *)

Definition no_nl (l : bytes) : Prop := Forall (fun b => is nl b = false) l.

Lemma no_nl_elem l : nl ∉ l <-> no_nl l.
Proof.
  unfold no_nl. rewrite Forall_forall. split.
  - intros H b Hb. apply is_false. by intros <-.
  - intros H Hb. apply H in Hb. by rewrite is_refl in Hb.
Qed.

Lemma split_join ls : ls <> [] -> Forall no_nl ls -> split_on nl (join ls) = ls.
Proof.
  intros Hne H. induction H as [|l ls Hl H IH]; [done|]. destruct ls as [|m ls]; [by apply split_on_none|].
  change (join (l :: m :: ls)) with (l ++ nl :: join (m :: ls)). rewrite split_on_app by done. by rewrite IH.
Qed.

Lemma join_split s : join (split_on nl s) = s.
Proof.
  induction s as [|b s IH]; [done|]. cbn. destruct (is nl b) eqn:E.
  - apply is_true in E as <-. pose proof (split_on_ne nl s). destruct (split_on nl s) eqn:E'; [done|]. cbn in *. by rewrite IH.
  - pose proof (split_on_ne nl s). destruct (split_on nl s) as [|x xs] eqn:E'; [done|].
    destruct xs; cbn in *; by rewrite IH.
Qed.

Lemma join_snoc ls l : ls <> [] -> join (ls ++ [l]) = join ls ++ nl :: l.
Proof.
  intros Hne. induction ls as [|a ls IH]; [done|]. destruct ls as [|b ls]; [done|].
  change (join ((a :: b :: ls) ++ [l])) with (a ++ nl :: join ((b :: ls) ++ [l])).
  rewrite IH by done. change (join (a :: b :: ls)) with (a ++ nl :: join (b :: ls)). by rewrite <- app_assoc.
Qed.

Lemma join_app_blanks ls k : ls <> [] -> join (ls ++ repeat [] k) = join ls ++ repeat nl k.
Proof.
  intros Hne. induction k as [|k IH] in ls, Hne |- *; cbn; [by rewrite !app_nil_r|].
  replace (ls ++ [] :: repeat [] k) with ((ls ++ [[]]) ++ repeat [] k) by (by rewrite <- app_assoc).
  rewrite IH by (by destruct ls). rewrite join_snoc by done. by rewrite <- app_assoc.
Qed.
Lemma join_blanks k : join (repeat [] (S k)) = repeat nl k.
Proof. change (repeat [] (S k)) with ([[]] ++ repeat (@nil byte) k). by rewrite join_app_blanks. Qed.

(** ** The text of a block *)

Lemma drop_blank_spec r : exists k, r = repeat [] k ++ drop_blank r /\ match drop_blank r with [] :: _ => False | _ => True end.
Proof.
  induction r as [|[|b l] r IH]; [by exists 0| |by exists 0]. destruct IH as (k & E & H). exists (S k). cbn. by rewrite <- E.
Qed.

Lemma rev_repeat {A} (x : A) k : rev (repeat x k) = repeat x k.
Proof. induction k as [|k IH]; [done|]. cbn. rewrite IH. clear. induction k as [|k IH]; [done|]. cbn. by rewrite IH. Qed.

(** Lines are those up to the last that is not empty, and empty ones. *)
Lemma core_spec ls : exists k, let core := rev (drop_blank (rev ls)) in
  ls = core ++ repeat [] k /\ length ls - length core = k /\ (core = [] \/ exists c l, core = c ++ [l] /\ l <> []).
Proof.
  destruct (drop_blank_spec (rev ls)) as (k & E & H). exists k. cbv zeta.
  assert (ls = rev (drop_blank (rev ls)) ++ repeat [] k) as E1.
  { rewrite <- (rev_involutive ls) at 1. rewrite E at 1. by rewrite rev_app_distr, rev_repeat. }
  split; [done|]. split; [rewrite E1 at 1; rewrite app_length, repeat_length; lia|].
  destruct (drop_blank (rev ls)) as [|l c]; [by left|]. right. exists (rev c), l. split; [done|]. by destruct l.
Qed.

Lemma chomp_snoc s a : chomp_of (s ++ [a]) = if is nl a then match rev s with [] => Keep | b :: _ => if is nl b then Keep else Clip end else Strip.
Proof. unfold chomp_of. by rewrite rev_app_distr. Qed.

(** A text ends with an open end if the block needs all its last line breaks kept. *)
Definition ends_open (s : bytes) : Prop := s = [nl] \/ exists t, s = t ++ [nl; nl].

Lemma keep_open s : chomp_of s = Keep <-> ends_open s.
Proof.
  unfold ends_open. split.
  - destruct s as [|a s] using rev_ind; [done|]. rewrite chomp_snoc. destruct (is nl a) eqn:E; [|done]. apply is_true in E as <-.
    destruct s as [|b s] using rev_ind; [by left|]. rewrite rev_app_distr. cbn. destruct (is nl b) eqn:E; [|done]. apply is_true in E as <-.
    intros _. right. exists s. by rewrite <- app_assoc.
  - intros [->|[t ->]]; [done|]. replace (t ++ [nl; nl]) with ((t ++ [nl]) ++ [nl]) by (by rewrite <- app_assoc).
    rewrite chomp_snoc, rev_app_distr. done.
Qed.

Lemma split_snoc_nl s : split_on nl (s ++ [nl]) = split_on nl s ++ [[]].
Proof.
  induction s as [|b s IH]; [done|]. cbn. destruct (is nl b); [by rewrite IH|].
  rewrite IH. pose proof (split_on_ne nl s). by destruct (split_on nl s).
Qed.

Lemma split_last s a : is nl a = false -> exists ls l, split_on nl (s ++ [a]) = ls ++ [l ++ [a]].
Proof.
  intros Ha. induction s as [|b s IH]; [exists [], []; cbn; by rewrite Ha|]. destruct IH as (ls & l & IH). cbn. rewrite IH.
  destruct (is nl b); [by exists ([] :: ls), l|]. destruct ls as [|x ls]; [by exists [], (b :: l)|by exists ((b :: x) :: ls), l].
Qed.

Lemma last_snoc' {A} (l : list A) x : last (l ++ [x]) = Some x.
Proof. apply last_snoc. Qed.

(** A block is read as the text it was printed from. *)
Lemma content_body s : existsb (is nl) s = true -> content (chomp_of s) (body s) = s.
Proof.
  intros Hnl. destruct s as [|a s] using rev_ind; [done|]. clear IHs. unfold body. rewrite chomp_snoc.
  destruct (is nl a) eqn:Ea.
  - apply is_true in Ea as <-. rewrite split_snoc_nl, last_snoc', removelast_last.
    destruct (core_spec (split_on nl s)) as (k & E & Ek & Hc). cbv zeta in *. unfold content.
    set (core := rev (drop_blank (rev (split_on nl s)))) in *. rewrite Ek. clearbody core.
    assert (s = join (core ++ repeat [] k)) as Es by (rewrite <- E; by rewrite join_split).
    destruct Hc as [Hc|(c & l & Hc & Hl)].
    + rewrite Hc in *. cbn [app] in *. destruct k as [|k]; [by destruct (split_on_ne nl s)|]. rewrite join_blanks in Es.
      assert (chomp_of (s ++ [nl]) = Keep) as Hk.
      { apply keep_open. unfold ends_open. rewrite Es. destruct k as [|k]; [by left|]. right. exists (repeat nl k).
        replace (repeat nl (S k)) with (repeat nl k ++ [nl]); [by rewrite <- app_assoc|]. by rewrite <- repeat_cons. }
      rewrite chomp_snoc, is_refl in Hk. rewrite Hk. cbn [app join]. rewrite Es.
      change (repeat nl (S k)) with (nl :: repeat nl k). by rewrite repeat_cons.
    + assert (core <> []) as Hcn by (rewrite Hc; by destruct c). rewrite join_app_blanks in Es by done.
      destruct k as [|k].
      * cbn [repeat] in *. rewrite app_nil_r in Es.
        assert (exists b r, rev s = b :: r /\ is nl b = false) as (b & r & Hr & Hb).
        { assert (Forall no_nl core) as Hf.
          { pose proof (split_on_free nl s) as Hf. rewrite E, app_nil_r in Hf. done. }
          destruct l as [|x l] using rev_ind; [done|].
          assert (is nl x = false) as Hx.
          { rewrite Hc in Hf. apply Forall_app in Hf as [_ Hf]. inversion Hf as [|? ? Hf' _]; subst.
            apply Forall_app in Hf' as [_ Hf']. by inversion Hf'. }
          assert (exists u, s = u ++ [x]) as [u Hu].
          { rewrite Es, Hc. destruct c as [|y c]; [by exists l|]. rewrite join_snoc by done. exists (join (y :: c) ++ nl :: l).
            by rewrite <- app_assoc. }
          exists x, (rev u). rewrite Hu, rev_app_distr. done. }
        rewrite Hr, Hb. destruct core; [done|]. by rewrite <- Es.
      * assert (chomp_of (s ++ [nl]) = Keep) as Hk.
        { apply keep_open. right. exists (join core ++ repeat nl k). rewrite Es.
          change (repeat nl (S k)) with (nl :: repeat nl k). rewrite repeat_cons. by rewrite <- !app_assoc. }
        rewrite chomp_snoc, is_refl in Hk. rewrite Hk. destruct core; [done|]. rewrite Es, <- !app_assoc. f_equal.
        cbn. by rewrite <- repeat_cons.
  - destruct (split_last s a Ea) as (ls & l & E). rewrite E, last_snoc'.
    destruct (l ++ [a]) as [|x m] eqn:Ex; [by destruct l|]. unfold content.
    assert (rev (drop_blank (rev (ls ++ [x :: m]))) = ls ++ [x :: m]) as ->.
    { rewrite rev_app_distr. cbn [rev app drop_blank]. by rewrite rev_involutive. }
    by rewrite app_nil_r, <- E, join_split.
Qed.

Lemma content_blank c ls : c <> Keep -> content c (ls ++ [[]]) = content c ls.
Proof. intros Hc. unfold content. rewrite rev_app_distr. cbn [rev app drop_blank]. by destruct c. Qed.

(** ** Reading lines *)

Lemma spaces_repeat n l : match l with b :: _ => is space b = false | [] => True end -> spaces (repeat space n ++ l) = n.
Proof. intros H. induction n as [|n IH]; cbn; [|by rewrite is_refl, IH]. destruct l; [done|]. cbn. by rewrite H. Qed.
Lemma spaces_ge n l : n <= spaces (repeat space n ++ l).
Proof. induction n as [|n IH]; cbn; [lia|]. rewrite is_refl. lia. Qed.
Lemma drop_repeat n (l : bytes) : drop n (repeat space n ++ l) = l.
Proof. induction n as [|n IH]; [done|]. done. Qed.

Definition block_ok (s : rstate) : Prop :=
  match r_block s with Some b => match b_ind b with Some i => 0 < i | None => True end | None => True end.
Definition not_keep (s : rstate) : Prop := match r_block s with Some b => b_chomp b <> Keep | None => True end.

Lemma rstep_ok s l : block_ok s -> block_ok (rstep s l).
Proof.
  unfold block_ok, rstep. intros H.
  assert (forall out, match r_block (outside out l) with Some b => match b_ind b with Some i => 0 < i | None => True end | None => True end) as Ho.
  { intros out. unfold outside. destruct (_ || _); [done|]. destruct (value_part _) as [v|]; [|done]. destruct (header v) as [[[] c]|]; cbn [r_block b_ind]; try done. lia. }
  destruct (r_block s) as [b|]; [|apply Ho].
  destruct (blank l); [done|]. destruct (b_ind b) as [i|]; [destruct (Nat.leb _ _); [done|apply Ho]|].
  destruct (Nat.ltb_spec (b_par b) (spaces l)); [cbn; lia|apply Ho].
Qed.

(** A line that is not blank and starts at the margin ends a block. *)
Lemma rstep_margin s b l : block_ok s -> is space b = false -> rstep s (b :: l) = outside (r_out (flush s)) (b :: l).
Proof.
  intros H Hb. unfold rstep, block_ok in *. destruct (r_block s) as [k|] eqn:E; [|by unfold flush; rewrite E].
  unfold blank. cbn [forallb]. rewrite Hb. cbn [andb]. cbn [spaces]. rewrite Hb.
  destruct (b_ind k) as [[|i]|]; [lia|done|]. by rewrite (proj2 (Nat.ltb_ge _ _)) by lia.
Qed.

Lemma outside_hash out l : outside out (hash :: l) = RState out None.
Proof. done. Qed.

Lemma comments_cases l : comments l = [] \/ exists c cs, comments l = [] :: (hash :: c) :: cs
  /\ Forall (fun c => exists r, c = hash :: r) cs /\ exists b r, l = b :: r /\ is space b = false.
Proof.
  unfold comments, starts_with.
  assert (forall p, beq (take (length p) l) p = true -> match p with b :: _ => is space b = false | [] => False end ->
    exists b r, l = b :: r /\ is space b = false) as Hl.
  { intros p Hp%beq_true Hb. destruct p as [|b p]; [done|]. destruct l as [|b' l]; [done|]. injection Hp as -> _. by exists b, l. }
  destruct (beq _ (str "connectionUrl:")) eqn:E1; [|destruct (beq _ (str "pidFile:")) eqn:E2; [|destruct (beq _ (str "storeFile:")) eqn:E3;
    [|destruct (beq _ (str "signatureFallback:")) eqn:E4; [|destruct (beq _ (str "databaseSalt:")) eqn:E5; [|by left]]]]];
    right; (eexists _, _; split; [reflexivity|]; split; [repeat (constructor; [by eexists|]); constructor|by eapply Hl]).
Qed.

(** Comments are read as one blank line: it may be added to the block before it. *)
Definition adj (n : bool) (s : rstate) : rstate := if n then rstep s [] else s.

Lemma comments_read s l n : block_ok s -> (comments l = [] <-> n = false) ->
  fold_left rstep (comments l ++ [l]) s = rstep (adj n s) l.
Proof.
  intros H Hn. rewrite fold_left_app. cbn [fold_left].
  assert (forall cs, Forall (fun c => exists r, c = hash :: r) cs -> forall out, fold_left rstep cs (RState out None) = RState out None) as Hcs.
  { intros cs Hc out. induction Hc as [|c cs (r & ->) _ IH]; [done|]. exact IH. }
  destruct (comments_cases l) as [E|(c & cs & E & Hall & b & r & -> & Hb)].
  - rewrite E. by rewrite (proj1 Hn E).
  - destruct n; [|by rewrite (proj2 Hn eq_refl) in E]. rewrite E. cbn [fold_left adj].
    assert (block_ok (rstep s [])) as H1 by (by apply rstep_ok).
    rewrite (rstep_margin (rstep s []) hash c) by done. rewrite outside_hash, Hcs by done.
    rewrite (rstep_margin (rstep s []) b r) by done. done.
Qed.

Lemma adj_blank s : not_keep s -> r_out (flush (rstep s [])) = r_out (flush s).
Proof.
  intros Hk. unfold not_keep in Hk. unfold rstep, flush. destruct (r_block s) as [k|] eqn:Ek; [|done].
  cbn [blank forallb r_block r_out push_line b_head b_chomp b_lines].
  replace (match b_ind k with Some i => drop i [] | None => [] end) with (@nil byte) by (by destruct (b_ind k) as [[]|]).
  by rewrite content_blank.
Qed.

(** Any text without blocks that keep their last line breaks. *)
Definition keeps_none (l : bytes) : Prop :=
  forall v h, value_part (drop (spaces l) l) = Some v -> header v <> Some (h, Keep).

Lemma rstep_not_keep s l : keeps_none l -> not_keep s -> not_keep (rstep s l).
Proof.
  intros Hl H.
  assert (forall out, not_keep (outside out l)) as Ho.
  { intros out. unfold outside, not_keep. destruct (_ || _); [done|].
    destruct (value_part _) as [v|] eqn:Ev; [|done]. destruct (header v) as [[h c]|] eqn:Eh; [|done]. cbn. intros ->. by apply (Hl v h). }
  unfold rstep. destruct (r_block s) as [b|] eqn:Eb; [|apply Ho]. unfold not_keep in H. rewrite Eb in H.
  destruct (blank l); [done|]. destruct (b_ind b) as [i|]; [destruct (Nat.leb _ _); [done|apply Ho]|].
  destruct (Nat.ltb _ _); [done|apply Ho].
Qed.

Theorem C46_any_text :
  forall ls, Forall keeps_none ls -> read_lines (annotate ls) = read_lines ls.
Proof.
  intros ls H. destruct H as [|l ls Hl H]; [done|]. unfold read_lines. do 2 f_equal. cbn [annotate fold_left].
  assert (block_ok (rstep (RState [] None) l)) as Hb by (by apply rstep_ok).
  assert (not_keep (rstep (RState [] None) l)) as Hk by (by apply rstep_not_keep).
  revert Hb Hk. generalize (rstep (RState [] None) l). induction H as [|m ls Hm H IH]; intros s Hb Hk; [done|].
  cbn [map concat fold_left]. rewrite fold_left_app.
  assert (fold_left rstep (comments m ++ [m]) s = rstep s m) as ->; [|apply IH; [by apply rstep_ok|by apply rstep_not_keep]].
  destruct (comments_cases m) as [E|(c & cs & E & _ & b & r & -> & Hb')]; [by rewrite E|].
  rewrite (comments_read s _ true) by (try done; by rewrite E). unfold adj.
  rewrite !rstep_margin by (try done; by apply rstep_ok). by rewrite adj_blank.
Qed.
Print Assumptions C46_any_text.

(** ** Reading what was printed *)

Lemma header_text_read h c : header (header_text h c) = Some (h, c).
Proof. by destruct h, c. Qed.

Section Items.
  Variable Y : Yaml.
  Hypothesis HY : YamlOk Y.

  Definition start (i : item) : bytes := repeat space (it_ind i) ++ it_key i.
  Definition value_text (i : item) : bytes :=
    match it_val i with
    | Raw t => t
    | Text s => if is_block Y s then header_text (hint_of s) (chomp_of s) else y_flow Y s
    end.
  Definition head_of (i : item) : bytes := start i ++ value_text i.

  Definition is_keep (c : chomp) : bool := match c with Keep => true | _ => false end.
  (** What a text is read as, if comments follow or not. *)
  Definition grown (more : bool) (s : bytes) : bytes :=
    if more && is_block Y s && is_keep (chomp_of s) then s ++ [nl] else s.
  Definition entry_of (i : item) (more : bool) : entry :=
    (head_of i, match it_val i with Text s => if is_block Y s then Some (grown more s) else None | Raw _ => None end).

  Definition item_ok (i : item) : Prop :=
    match it_key i with b :: _ => is space b = false /\ is hash b = false | [] => False end
    /\ no_nl (it_key i)
    /\ match it_val i with
       | Text s => forall v, value_part (it_key i ++ v) = Some v
       | Raw t => no_nl t /\ match value_part (it_key i ++ t) with Some v => header v | None => None end = None
       end.

  Lemma start_parts i v : item_ok i ->
    spaces (start i ++ v) = it_ind i /\ drop (it_ind i) (start i ++ v) = it_key i ++ v
    /\ blank (start i ++ v) = false /\ comment (start i ++ v) = false.
  Proof.
    intros (Hk & _). unfold start. rewrite <- app_assoc. destruct (it_key i) as [|b k]; [done|]. destruct Hk as [Hs Hh].
    cbn [app]. assert (spaces (repeat space (it_ind i) ++ b :: k ++ v) = it_ind i) as E by (by apply spaces_repeat).
    split; [done|]. split; [apply drop_repeat|]. unfold comment. rewrite E, drop_repeat. split; [|done].
    unfold blank. apply not_true_iff_false. rewrite forallb_forall. intros H. rewrite (H b) in Hs; [done|].
    apply in_or_app. right. by left.
  Qed.

  Definition closes (s : rstate) (n : nat) : Prop :=
    match r_block s with
    | None => True
    | Some b => match b_ind b with Some i => n < i | None => n <= b_par b end
    end.

  Lemma rstep_closed s l : closes s (spaces l) -> blank l = false -> rstep s l = outside (r_out (flush s)) l.
  Proof.
    unfold closes, rstep, flush. destruct (r_block s) as [b|] eqn:E; [|done]. intros H ->.
    destruct (b_ind b) as [i|]; [by rewrite (proj2 (Nat.leb_gt _ _))|by rewrite (proj2 (Nat.ltb_ge _ _))].
  Qed.

  Definition item_state (out : list entry) (i : item) : rstate :=
    match it_val i with
    | Text s => if is_block Y s
                then RState out (Some (Block (head_of i) (it_ind i) (Some (it_ind i + 2)) (chomp_of s) (body s)))
                else RState (out ++ [entry_of i false]) None
    | Raw _ => RState (out ++ [entry_of i false]) None
    end.

  Lemma push_body i out ls b : b_ind b = Some i ->
    fold_left rstep (map (indent i) ls) (RState out (Some b))
    = RState out (Some (Block (b_head b) (b_par b) (Some i) (b_chomp b) (b_lines b ++ ls))).
  Proof.
    revert b. induction ls as [|l ls IH]; intros b Hb; cbn [map fold_left].
    - rewrite app_nil_r, <- Hb. by destruct b.
    - assert (rstep (RState out (Some b)) (indent i l) = RState out (Some (push_line b (Some i) l))) as ->.
      { unfold rstep. cbn [r_block r_out]. rewrite Hb. destruct l as [|x l]; [by destruct i|].
        assert (drop i (indent i (x :: l)) = x :: l) as -> by apply drop_repeat.
        destruct (blank _); [done|]. by rewrite (proj2 (Nat.leb_le _ _)) by apply spaces_ge. }
      rewrite IH by done. unfold push_line. cbn [b_head b_par b_chomp b_lines]. by rewrite <- app_assoc.
  Qed.

  Lemma body_first s : existsb (is nl) s = true -> hint_of s = false ->
    exists a l ls, body s = (a :: l) :: ls /\ is space a = false.
  Proof.
    intros Hx Hh. destruct s as [|a s]; [done|]. cbn in Hh. apply orb_false_iff in Hh as [Hn Hs].
    unfold body. cbn [split_on]. rewrite Hn. pose proof (split_on_ne nl s). destruct (split_on nl s) as [|x xs]; [done|].
    exists a, x. destruct xs as [|y ys]; [by exists []|].
    change (last ((a :: x) :: y :: ys)) with (last (y :: ys)).
    change (removelast ((a :: x) :: y :: ys)) with ((a :: x) :: removelast (y :: ys)).
    destruct (last (y :: ys)) as [[|? ?]|]; eauto.
  Qed.

  Lemma read_item i s s' : item_ok i -> closes s' (it_ind i) ->
    fold_left rstep (head_of i :: tl (print_item Y i)) s' = item_state (r_out (flush s')) i
    /\ rstep s (head_of i) = rstep s (hd [] (print_item Y i)).
  Proof.
    intros Hi Hc. split; [|unfold print_item, head_of, value_text, start; destruct (it_val i) as [t|]; [|done]; by destruct (is_block Y t)].
    cbn [fold_left]. destruct (start_parts i (value_text i) Hi) as (H1 & H2 & H3 & H4). fold (head_of i) in *.
    rewrite rstep_closed by (by rewrite ?H1). unfold outside. rewrite H3, H4, H1, H2. cbn [orb].
    destruct Hi as (Hk & Hn & Hv). unfold print_item, item_state, entry_of, value_text in *.
    destruct (it_val i) as [t|t]; [|by destruct Hv as [_ ->]]. rewrite Hv.
    destruct (is_block Y t) eqn:Eb.
    - rewrite header_text_read. cbn [tl]. apply andb_true_iff in Eb as [Enl _]. destruct (hint_of t) eqn:Eh.
      + rewrite push_body by done. done.
      + destruct (body_first t Enl Eh) as (a & l & ls & Ebody & Ha). rewrite Ebody. cbn [map fold_left].
        set (b := Block _ _ None _ _).
        assert (rstep (RState (r_out (flush s')) (Some b)) (indent (it_ind i + 2) (a :: l))
          = RState (r_out (flush s')) (Some (push_line b (Some (it_ind i + 2)) (a :: l)))) as ->.
        { unfold rstep. cbn [r_block r_out b_ind b b_par indent].
          assert (spaces (repeat space (it_ind i + 2) ++ a :: l) = it_ind i + 2) as Es by (by apply spaces_repeat).
          rewrite Es, drop_repeat, (proj2 (Nat.ltb_lt _ _)) by lia.
          assert (blank (repeat space (it_ind i + 2) ++ a :: l) = false) as ->; [|done].
          unfold blank. apply not_true_iff_false. rewrite forallb_forall. intros H. rewrite (H a) in Ha; [done|].
          apply in_or_app. right. by left. }
        rewrite push_body by done. done.
    - cbn [tl fold_left]. assert (header (y_flow Y t) = None) as ->; [|done].
      pose proof (yo_bar Y HY t) as Hb. destruct (y_flow Y t) as [|x f]; [done|]. by destruct x.
  Qed.

  Lemma content_keep ls : content Keep (ls ++ [[]]) = content Keep ls ++ [nl].
  Proof.
    unfold content. rewrite rev_app_distr. cbn [rev app drop_blank]. rewrite <- !app_assoc. do 2 f_equal.
    destruct (core_spec ls) as (k & E & Ek & _). cbv zeta in *. rewrite app_length. cbn [length].
    set (core := rev (drop_blank (rev ls))) in *. assert (length core <= length ls) by (rewrite E, app_length; lia).
    replace (length ls + 1 - length core) with (S (length ls - length core)) by lia.
    change (nl :: ?l) with ([nl] ++ l). cbn [repeat]. by rewrite repeat_cons.
  Qed.

  Lemma item_state_out out i n : r_out (flush (adj n (item_state out i))) = out ++ [entry_of i n].
  Proof.
    unfold item_state, entry_of. destruct (it_val i) as [t|t]; [|by destruct n].
    destruct (is_block Y t) eqn:Eb; [|by destruct n].
    pose proof Eb as [Enl _]%andb_true_iff. unfold grown. rewrite Eb, andb_true_r. destruct n; unfold adj, flush, rstep; cbn [r_block r_out].
    - cbn [blank forallb r_block r_out push_line b_head b_ind b_chomp b_lines].
      assert (drop (it_ind i + 2) [] = @nil byte) as -> by (by destruct (it_ind i + 2)). cbn [andb].
      do 4 f_equal. pose proof (content_body t Enl) as Et. destruct (chomp_of t) eqn:Ec; cbn [is_keep].
      + by rewrite content_blank.
      + by rewrite content_blank.
      + by rewrite content_keep, Et.
    - cbn [b_head b_chomp b_lines andb]. by rewrite content_body.
  Qed.

  Lemma item_state_ok out i n m : block_ok (item_state out i)
    /\ (match it_val i with Raw _ => True | Text _ => m <= it_ind i end -> closes (adj n (item_state out i)) m).
  Proof.
    unfold item_state, block_ok. destruct (it_val i) as [t|t]; [destruct (is_block Y t)|].
    - cbn. split; [lia|]. intros H. destruct n; cbn; lia.
    - split; [done|]. intros _. by destruct n.
    - split; [done|]. intros _. by destruct n.
  Qed.

  (** Items and whether comments are put before them. *)
  Definition follows (i j : item) : Prop := match it_val i with Raw _ => True | Text _ => it_ind j <= it_ind i end.
  Fixpoint chain (l : list (item * bool)) : Prop :=
    match l with
    | (i, _) :: ((j, _) :: _) as r => follows i j /\ chain r
    | _ => True
    end.
  Fixpoint entries (l : list (item * bool)) : list entry :=
    match l with
    | [] => []
    | (i, _) :: r => entry_of i match r with (_, n) :: _ => n | [] => false end :: entries r
    end.

  Variable note : bytes -> list bytes.
  Definition notes (ls : list bytes) : list bytes := concat (map note ls).
  Hypothesis note_read : forall l n s, block_ok s -> (note l = [l] <-> n = false) -> fold_left rstep (note l) s = rstep (adj n s) l.
  Hypothesis note_inside : forall l, match l with b :: _ => is space b = true | [] => True end -> note l = [l].

  Lemma notes_body n ls : notes (map (indent (S n)) ls) = map (indent (S n)) ls.
  Proof.
    unfold notes. induction ls as [|l ls IH]; [done|]. cbn [map concat]. rewrite IH, note_inside; [done|].
    destruct l; [done|]. cbn. apply is_refl.
  Qed.

  Lemma print_item_head i : print_item Y i = head_of i :: tl (print_item Y i) /\ notes (tl (print_item Y i)) = tl (print_item Y i).
  Proof.
    unfold print_item, head_of, value_text, start. destruct (it_val i) as [t|]; [|done].
    destruct (is_block Y t); [|done]. split; [done|]. cbn [tl]. replace (it_ind i + 2) with (S (it_ind i + 1)) by lia. apply notes_body.
  Qed.

  Lemma read_items l : Forall (fun p => item_ok (fst p) /\ (note (head_of (fst p)) = [head_of (fst p)] <-> snd p = false)) l -> chain l ->
    forall s, block_ok s -> match l with (i, n) :: _ => closes (adj n s) (it_ind i) | [] => True end ->
    let s' := fold_left rstep (notes (concat (map (print_item Y) (map fst l)))) s in
    r_out (flush s') = r_out (flush (adj match l with (_, n) :: _ => n | [] => false end s)) ++ entries l
    /\ match last l with Some (i, _) => exists out, s' = item_state out i | None => True end.
  Proof.
    intros H. induction H as [|[i n] l [Hi Hn] H IH]; intros Hch s Hs Hc; cbv zeta; [by rewrite app_nil_r|].
    cbn [fst snd] in Hi, Hn.
    assert (fold_left rstep (notes (print_item Y i)) s = item_state (r_out (flush (adj n s))) i) as E.
    { destruct (print_item_head i) as [Ep Ht]. rewrite Ep. unfold notes. cbn [map concat]. rewrite fold_left_app, (note_read _ n) by done.
      fold (notes (tl (print_item Y i))). rewrite Ht.
      change (fold_left rstep (head_of i :: tl (print_item Y i)) (adj n s) = item_state (r_out (flush (adj n s))) i).
      by apply (read_item i s). }
    cbn [map concat fst]. unfold notes in *. rewrite map_app, concat_app, fold_left_app, E.
    set (out := r_out (flush (adj n s))) in *.
    destruct l as [|[j m] l].
    - cbn [map concat fold_left entries last]. split; [|by exists out]. pose proof (item_state_out out i false) as Ho. exact Ho.
    - destruct Hch as [Hf Hch]. destruct (IH Hch (item_state out i)) as [IH1 IH2].
      + by apply (item_state_ok out i false 0).
      + by apply (item_state_ok out i m).
      + split; [|exact IH2]. etransitivity; [exact IH1|]. rewrite item_state_out, <- app_assoc. done.
  Qed.
End Items.

(** ** Configurations *)

(** What any configuration in use satisfies: sizes are those of the types. *)
Definition config_ok (c : config) : Prop :=
  (exists t, parse_url t = Some (cf_url c))
  /\ length (cf_db_salt c) = 16 /\ length (cf_salt c) = 16
  /\ (cf_mem c < 2 ^ 32)%N /\ (cf_ops c < 2 ^ 32)%N
  /\ secret_ok 49 (cf_context c) /\ secret_ok 49 (cf_id c).

Section Configs.
  Variable Y : Yaml.
  Hypothesis HY : YamlOk Y.
  Variable f : bool.   (* with comments *)

  Definition plain_item (i : item) : item * bool := (i, false).
  Definition flagged (c : config) : list (item * bool) :=
    [(Item 0 (str "connectionUrl: ") (Text (url_text (cf_url c))), f);
     (Item 0 (str "pidFile: ") (Text (cf_pid c)), f); (Item 0 (str "storeFile: ") (Text (cf_store c)), f)]
    ++ match fallback_items (cf_fallback c) with i :: l => (i, f) :: map plain_item l | [] => [] end
    ++ [(Item 0 (str "databaseSalt: ") (Text (to_b64url (cf_db_salt c))), f)]
    ++ map plain_item ([Item 0 (str "runtimeSecretsSalt: ") (Text (to_b64url (cf_salt c)));
        Item 0 (str "runtimeSecretsMemLimit: ") (Raw (dec (cf_mem c)));
        Item 0 (str "runtimeSecretsOpsLimit: ") (Raw (dec (cf_ops c)))]
    ++ secret_items (str "runtimeSecretsContextKey:") (cf_context c)
    ++ secret_items (str "runtimeSecretsIdSeed:") (cf_id c)).

  Lemma fst_plain l : map fst (map plain_item l) = l.
  Proof. induction l as [|i l IH]; [done|]. cbn. by rewrite IH. Qed.

  Lemma fst_flagged c : map fst (flagged c) = items c.
  Proof.
    unfold flagged, items. rewrite !map_app. cbn [map fst app]. do 3 f_equal. f_equal.
    - unfold fallback_items. destruct (cf_fallback c) as [[p [[|a l]|]]|]; try done. cbn [app map fst plain_item]. by rewrite fst_plain.
  Qed.

  Fixpoint grown_last (l : list bytes) : list bytes :=
    match l with [] => [] | [a] => [grown Y f a] | a :: r => a :: grown_last r end.
  Definition grown_config (c : config) : config :=
    Config (cf_url c) (grown Y f (cf_pid c)) (grown Y f (cf_store c))
      (match cf_fallback c with Some (p, Some l) => Some (p, Some (grown_last l)) | o => o end)
      (cf_db_salt c) (cf_salt c) (cf_mem c) (cf_ops c) (cf_context c) (cf_id c).

  Lemma starts_app k v : starts_with k (k ++ v) = true.
  Proof. unfold starts_with. rewrite take_app. apply beq_refl. Qed.

  Lemma string_of_entry key n k s m : repeat space n ++ k = key ->
    string_of Y key (entry_of Y (Item n k (Text s)) m) = Some (grown Y m s).
  Proof.
    intros <-. unfold string_of, entry_of, head_of, start, value_text, grown. cbn [it_val it_ind it_key].
    rewrite starts_app, drop_app. destruct (is_block Y s) eqn:E; [done|]. rewrite andb_false_r. cbn [andb]. apply (yo_back Y HY).
  Qed.
  Lemma raw_of_entry key n k s m : repeat space n ++ k = key ->
    raw_of key (entry_of Y (Item n k (Raw s)) m) = Some s.
  Proof.
    intros <-. unfold raw_of, entry_of, head_of, start, value_text. cbn [it_val it_ind it_key]. by rewrite starts_app, drop_app.
  Qed.

  Lemma grown_line m s : no_nl s -> grown Y m s = s.
  Proof.
    intros H. unfold grown, is_block. replace (existsb (is nl) s) with false; [by rewrite andb_false_r|].
    symmetry. apply not_true_iff_false. rewrite existsb_exists. intros (b & Hb & E). unfold no_nl in H. rewrite Forall_forall in H.
    rewrite H in E; [done|]. by apply elem_of_list_In.
  Qed.
  Lemma b64_line l : no_nl (to_b64url l).
  Proof. apply b64_forall. by intros []. Qed.
  Lemma sized_b64 n l : length l = n -> sized n (to_b64url l) = Some l.
  Proof. intros <-. unfold sized, sized_from_str. rewrite from_to_b64url. cbn [rbind]. by rewrite Nat.eqb_refl. Qed.
  Lemma u32_dec n : (n < 2 ^ 32)%N -> u32 (dec n) = Some n.
  Proof. intros H. unfold u32. rewrite digits_dec. cbn [mbind option_bind]. by rewrite (proj2 (N.ltb_lt _ _)). Qed.

  Lemma url_line u : url_ok u -> no_nl (url_text u).
  Proof.
    intros (Hp & Hq & Hf).
    assert (forall b, esc_base b = false -> is nl b = false) as Hb.
    { intros b [_ H]%esc_base_edge. unfold tab_nl in H. rewrite !orb_false_iff in H. by destruct H as [[_ ?] _]. }
    unfold url_text, no_nl. apply Forall_app. split; [by repeat constructor|]. apply Forall_app. split; [|apply Forall_app; split].
    - destruct (u_path u) as [l|]; [|constructor]. destruct Hp as [_ Hp]. induction Hp as [|s l [Hs _] _ IH]; [constructor|].
      cbn. constructor; [done|]. apply Forall_app. split; [|done]. eapply Forall_impl; [exact Hs|]. intros b [H _]. cbn.
      apply Hb. unfold esc_path in H. by apply orb_false_iff in H as [? _].
    - destruct (u_query u); [|constructor]. constructor; [done|]. eapply Forall_impl; [exact Hq|]. intros b H. cbn.
      apply Hb. unfold esc_query in H. by apply orb_false_iff in H as [? _].
    - destruct (u_frag u); [|constructor]. constructor; [done|]. eapply Forall_impl; [exact Hf|]. intros b H. cbn.
      apply Hb. unfold esc_fragment in H. by apply orb_false_iff in H as [? _].
  Qed.

  Lemma list_of_cons key e es s : string_of Y key e = Some s ->
    list_of Y key (e :: es) = let '(l, r) := list_of Y key es in (s :: l, r).
  Proof. intros H. cbn [list_of]. by rewrite H. Qed.

  Definition arg_items (l : list bytes) : list (item * bool) :=
    map plain_item (map (fun a => Item 2 (str "- ") (Text a)) l).

  Lemma list_of_entries l d r : starts_with (str "  - ") (head_of Y d) = false ->
    list_of Y (str "  - ") (entries Y (arg_items l ++ (d, f) :: r)) = (grown_last l, entries Y ((d, f) :: r)).
  Proof.
    intros Hd. induction l as [|a l IH].
    - unfold arg_items. cbn [map app entries list_of]. unfold string_of at 1. unfold entry_of at 1. by rewrite Hd.
    - change (entries Y (arg_items (a :: l) ++ (d, f) :: r)) with
        (entry_of Y (Item 2 (str "- ") (Text a)) match arg_items l ++ (d, f) :: r with (_, n) :: _ => n | [] => false end
         :: entries Y (arg_items l ++ (d, f) :: r)).
      erewrite list_of_cons by (by apply string_of_entry). rewrite IH. destruct l as [|b l]; [done|]. done.
  Qed.

  Lemma entries_cons i n r : entries Y ((i, n) :: r) = entry_of Y i match r with (_, n) :: _ => n | [] => false end :: entries Y r.
  Proof. done. Qed.

  Lemma read_fallback_entries fb d r : starts_with (str "  - ") (head_of Y d) = false ->
    read_fallback Y (entries Y (match fallback_items fb with i :: l => (i, f) :: map plain_item l | [] => [] end ++ (d, f) :: r))
    = Some (match fb with Some (p, Some l) => Some (p, Some (grown_last l)) | o => o end, entries Y ((d, f) :: r)).
  Proof.
    intros Hd. unfold fallback_items. destruct fb as [[p args]|]; [|].
    - destruct args as [[|a l]|].
      + cbn [app map]. rewrite !entries_cons. unfold read_fallback. rewrite raw_of_entry by done. cbn [mbind option_bind].
        change (beq (str "!command") (str "none")) with false. cbn iota.
        change (beq (str "!command") (str "!command")) with true. cbn [negb].
        unfold plain_item. rewrite !entries_cons. rewrite string_of_entry by done. done.
      + cbn [app map]. fold (arg_items (a :: l)).
        change (map plain_item (map (fun a => Item 2 (str "- ") (Text a)) l)) with (arg_items l).
        change (plain_item (Item 2 (str "- ") (Text a)) :: arg_items l) with (arg_items (a :: l)).
        rewrite !entries_cons. unfold read_fallback. rewrite raw_of_entry by done. cbn [mbind option_bind].
        change (beq (str "!command") (str "none")) with false. cbn iota.
        change (beq (str "!command") (str "!command")) with true. cbn [negb].
        unfold plain_item at 1 2. rewrite !entries_cons. rewrite string_of_entry by done.
        cbn [mbind option_bind fst entry_of].
        change (head_of Y (Item 2 (str "args:") (Raw []))) with (str "  args:").
        change (beq (str "  args:") (str "  args: null")) with false. change (beq (str "  args:") (str "  args: []")) with false.
        change (beq (str "  args:") (str "  args:")) with true. cbn iota.
        change (match list_of Y (str "  - ") (entries Y (arg_items (a :: l) ++ (d, f) :: r)) with (l0, es) => Some (Some (p, Some l0), es) end
          = Some (Some (p, Some (grown_last (a :: l))), entries Y ((d, f) :: r))).
        by rewrite list_of_entries.
      + cbn [app map]. rewrite !entries_cons. unfold read_fallback. rewrite raw_of_entry by done. cbn [mbind option_bind].
        change (beq (str "!command") (str "none")) with false. cbn iota.
        change (beq (str "!command") (str "!command")) with true. cbn [negb].
        unfold plain_item. rewrite !entries_cons. rewrite string_of_entry by done. done.
    - cbn [app map]. rewrite entries_cons. unfold read_fallback. rewrite raw_of_entry by done. done.
  Qed.

  Lemma read_secret_entries key k s r : secret_ok 49 s -> start (Item 0 k (Raw [])) = key ->
    read_secret Y key (entries Y (map plain_item (secret_items k s) ++ map plain_item r)) = Some (s, entries Y (map plain_item r)).
  Proof.
    intros [H1 H2] <-. unfold secret_items. cbn [map app]. unfold plain_item at 1 2 3. rewrite !entries_cons. unfold read_secret.
    assert (fst (entry_of Y (Item 0 k (Raw [])) false) = start (Item 0 k (Raw []))) as ->.
    { unfold entry_of, head_of. cbn [fst value_text it_val]. by rewrite app_nil_r. }
    rewrite beq_refl. cbn [negb]. rewrite !string_of_entry by done. cbn [mbind option_bind].
    rewrite !grown_line by apply b64_line. rewrite (sized_b64 24) by done. cbn [mbind option_bind].
    rewrite (sized_b64 49) by done. cbn [mbind option_bind]. by destruct s.
  Qed.

  Lemma read_entries c : config_ok c -> read_config Y (entries Y (flagged c)) = Some (grown_config c).
  Proof.
    intros ((t & Hu) & Hd & Hs & Hm & Ho & Hk & Hi). unfold flagged. cbn [app]. rewrite !entries_cons. unfold read_config.
    rewrite !string_of_entry by done. cbn [mbind option_bind].
    rewrite (grown_line _ (url_text (cf_url c))) by (by eapply url_line, parse_url_ok). rewrite (C45_text_reads_back _ _ Hu). cbn [mbind option_bind].
    rewrite read_fallback_entries by done. cbn [mbind option_bind].
    cbn [map]. rewrite map_app. unfold plain_item at 1 2 3. rewrite !entries_cons.
    rewrite !string_of_entry by done. cbn [mbind option_bind]. rewrite !(grown_line _ (to_b64url _)) by apply b64_line.
    rewrite (sized_b64 16) by done. cbn [mbind option_bind]. rewrite (sized_b64 16) by done. cbn [mbind option_bind].
    rewrite !raw_of_entry by done. cbn [mbind option_bind]. rewrite u32_dec by done. cbn [mbind option_bind].
    rewrite u32_dec by done. cbn [mbind option_bind].
    rewrite read_secret_entries by done. cbn [mbind option_bind].
    rewrite <- (app_nil_r (map plain_item (secret_items (str "runtimeSecretsIdSeed:") (cf_id c)))).
    rewrite (read_secret_entries _ _ _ []) by done. cbn [mbind option_bind map entries].
    unfold grown_config. do 2 f_equal; unfold fallback_items; by destruct (cf_fallback c) as [[? [[]|]]|].
  Qed.

  Lemma starts_first p l : match p, l with a :: _, b :: _ => a <> b | _, _ => False end -> starts_with p l = false.
  Proof.
    destruct p as [|a p], l as [|b l]; try done. intros H. apply not_true_iff_false. intros E%beq_true. by injection E.
  Qed.
  Lemma comments_first b l : forallb (fun p => negb (is p b)) [x63; x70; x73; x64] = true -> comments (b :: l) = [].
  Proof.
    cbn. rewrite !andb_true_iff, !negb_true_iff, !is_false. intros (H1 & H2 & H3 & H4 & _).
    unfold comments. by rewrite !starts_first.
  Qed.
  Lemma comments_some l p : p ∈ [str "connectionUrl:"; str "pidFile:"; str "storeFile:"; str "signatureFallback:"; str "databaseSalt:"] ->
    comments (p ++ l) <> [].
  Proof.
    intros H. unfold comments.
    destruct (starts_with (str "connectionUrl:") (p ++ l)) eqn:E1; [done|]. destruct (starts_with (str "pidFile:") (p ++ l)) eqn:E2; [done|].
    destruct (starts_with (str "storeFile:") (p ++ l)) eqn:E3; [done|]. destruct (starts_with (str "signatureFallback:") (p ++ l)) eqn:E4; [done|].
    destruct (starts_with (str "databaseSalt:") (p ++ l)) eqn:E5; [done|].
    repeat (apply elem_of_cons in H as [->|H]; [by rewrite starts_app in *|]). by apply elem_of_nil in H.
  Qed.

  Lemma dec_line n : no_nl (dec n) /\ header (dec n) = None.
  Proof.
    unfold dec. generalize (N.to_uint n). intros u. split.
    - unfold no_nl. induction u; cbn; constructor; done.
    - by destruct u.
  Qed.

  Definition note_of (l : bytes) : list bytes := (if f then comments l else []) ++ [l].

  Lemma note_one l n : (note_of l = [l] <-> n = false) <-> if f then (comments l = [] <-> n = false) else n = false.
  Proof.
    unfold note_of. destruct f; cbn [app]; [|tauto].
    assert (comments l ++ [l] = [l] <-> comments l = []) as ->; [|done].
    split; [|by intros ->]. intros H. destruct (comments l) as [|x xs]; [done|]. injection H as _ H. by destruct xs.
  Qed.

  Lemma note_of_read l n s : block_ok s -> (note_of l = [l] <-> n = false) -> fold_left rstep (note_of l) s = rstep (adj n s) l.
  Proof.
    intros Hs H. apply note_one in H. unfold note_of. destruct f; [by apply comments_read|]. by subst n.
  Qed.
  Lemma note_of_inside l : match l with b :: _ => is space b = true | [] => True end -> note_of l = [l].
  Proof.
    intros H. unfold note_of. destruct f; [|done]. destruct (comments_cases l) as [->|(c & cs & _ & _ & b & r & -> & Hb)]; [done|congruence].
  Qed.

  Definition good (p : item * bool) : Prop :=
    item_ok (fst p) /\ (note_of (head_of Y (fst p)) = [head_of Y (fst p)] <-> snd p = false).

  Lemma good_plain i : item_ok i -> (forall v, comments (start i ++ v) = []) -> good (i, false).
  Proof. intros Hi Hc. split; [done|]. apply note_one. cbn [fst snd]. destruct f; [|done]. unfold head_of. by rewrite Hc. Qed.
  Lemma good_noted i : item_ok i -> (forall v, comments (start i ++ v) <> []) -> good (i, f).
  Proof.
    intros Hi Hc. split; [done|]. apply note_one. cbn [fst snd]. destruct f; [|done]. unfold head_of.
    split; [|done]. intros E. by apply Hc in E.
  Qed.

  Lemma text_item n k s : match k with b :: _ => is space b = false /\ is hash b = false | [] => False end -> no_nl k ->
    (forall v, value_part (k ++ v) = Some v) -> item_ok (Item n k (Text s)).
  Proof. done. Qed.

  Ltac text_ok := apply text_item; [done|by repeat constructor|done].
  Ltac noted p := intros v; change (comments (str p ++ x20 :: v) <> []); apply comments_some; set_solver.
  Ltac other := intros v; by apply comments_first.

  Lemma good_secret k s : item_ok (Item 0 k (Raw [])) -> (forall v, comments (k ++ v) = []) ->
    Forall good (map plain_item (secret_items k s)).
  Proof.
    intros Hk Hc. unfold secret_items, plain_item. cbn [map].
    apply Forall_cons_2; [by apply good_plain|]. apply Forall_cons_2; [apply good_plain; [text_ok|other]|].
    apply Forall_cons_2; [apply good_plain; [text_ok|other]|constructor].
  Qed.

  Lemma good_fallback fb : Forall good (match fallback_items fb with i :: l => (i, f) :: map plain_item l | [] => [] end).
  Proof.
    assert (forall t, t ∈ [str "none"; str "!command"] -> good (Item 0 (str "signatureFallback: ") (Raw t), f)) as H0.
    { intros t Ht. apply good_noted; [|noted "signatureFallback:"%string]. split; [done|]. split; [by repeat constructor|].
      repeat (apply elem_of_cons in Ht as [->|Ht]; [split; [by repeat constructor|done]|]). by apply elem_of_nil in Ht. }
    unfold fallback_items. destruct fb as [[p args]|]; cbn [app map]; [|apply Forall_cons_2; [apply H0; set_solver|constructor]].
    apply Forall_cons_2; [apply H0; set_solver|]. apply Forall_cons_2; [apply good_plain; [text_ok|other]|].
    assert (forall k t, no_nl t -> no_nl k -> item_ok (Item 2 k (Raw t)) -> good (Item 2 k (Raw t), false)) as H1.
    { intros k t Ht Hk Hi. apply good_plain; [done|other]. }
    destruct args as [[|a l]|].
    - apply Forall_cons_2; [|constructor]. apply H1; try (by repeat constructor).
    - cbn [map]. apply Forall_cons_2; [apply H1; by repeat constructor|].
      apply Forall_cons_2; [apply good_plain; [text_ok|other]|].
      induction l as [|x r IH]; [constructor|]. cbn [map]. apply Forall_cons_2; [apply good_plain; [text_ok|other]|done].
    - apply Forall_cons_2; [|constructor]. apply H1; try (by repeat constructor).
  Qed.

  Lemma good_flagged c : Forall good (flagged c).
  Proof.
    unfold flagged. cbn [app].
    apply Forall_cons_2; [apply good_noted; [text_ok|noted "connectionUrl:"%string]|].
    apply Forall_cons_2; [apply good_noted; [text_ok|noted "pidFile:"%string]|].
    apply Forall_cons_2; [apply good_noted; [text_ok|noted "storeFile:"%string]|].
    apply Forall_app_2; [apply good_fallback|].
    apply Forall_cons_2; [apply good_noted; [text_ok|noted "databaseSalt:"%string]|]. cbn [map].
    assert (forall k n, match k with b :: _ => is space b = false /\ is hash b = false | [] => False end -> no_nl k ->
      (forall v, value_part (k ++ v) = Some v) -> item_ok (Item 0 k (Raw (dec n)))) as Hd.
    { intros k n H1 H2 H3. split; [done|]. split; [done|]. cbn [it_val it_key]. rewrite H3. apply dec_line. }
    apply Forall_cons_2; [apply good_plain; [text_ok|other]|].
    apply Forall_cons_2; [apply good_plain; [apply Hd; [done|by repeat constructor|done]|other]|].
    apply Forall_cons_2; [apply good_plain; [apply Hd; [done|by repeat constructor|done]|other]|].
    rewrite map_app. apply Forall_app_2; apply good_secret; try other; by repeat constructor.
  Qed.

  Lemma chain_flagged c : chain (flagged c).
  Proof.
    unfold flagged. cbn [app]. split; [cbn; lia|]. split; [cbn; lia|].
    assert (forall t, chain ((Item 0 (str "databaseSalt: ") (Text t), f)
      :: map plain_item (Item 0 (str "runtimeSecretsSalt: ") (Text (to_b64url (cf_salt c)))
         :: Item 0 (str "runtimeSecretsMemLimit: ") (Raw (dec (cf_mem c)))
         :: Item 0 (str "runtimeSecretsOpsLimit: ") (Raw (dec (cf_ops c)))
         :: secret_items (str "runtimeSecretsContextKey:") (cf_context c)
            ++ secret_items (str "runtimeSecretsIdSeed:") (cf_id c)))) as Ht.
    { intros t. repeat (split; [first [done|cbn; lia]|]). done. }
    specialize (Ht (to_b64url (cf_db_salt c))). revert Ht. generalize (map plain_item (Item 0 (str "runtimeSecretsSalt: ") (Text (to_b64url (cf_salt c)))
         :: Item 0 (str "runtimeSecretsMemLimit: ") (Raw (dec (cf_mem c)))
         :: Item 0 (str "runtimeSecretsOpsLimit: ") (Raw (dec (cf_ops c)))
         :: secret_items (str "runtimeSecretsContextKey:") (cf_context c)
            ++ secret_items (str "runtimeSecretsIdSeed:") (cf_id c))). intros r Hr.
    unfold fallback_items. destruct (cf_fallback c) as [[p [[|a l]|]]|]; cbn [app map]; repeat (split; [first [done|cbn; lia]|]); try done.
    induction l as [|b l IH] in a |- *; cbn [map app]; [split; [cbn; lia|done]|]. split; [cbn; lia|]. apply IH.
  Qed.

  Lemma no_nl_app a b : no_nl a -> no_nl b -> no_nl (a ++ b).
  Proof. apply Forall_app_2. Qed.
  Lemma no_nl_repeat n : no_nl (repeat space n).
  Proof. induction n; constructor; done. Qed.

  Lemma print_lines i : item_ok i -> Forall no_nl (print_item Y i).
  Proof.
    intros (_ & Hk & Hv). unfold print_item. pose proof (no_nl_app _ _ (no_nl_repeat (it_ind i)) Hk) as Hs.
    destruct (it_val i) as [t|t].
    - destruct (is_block Y t).
      + constructor; [apply no_nl_app; [done|by destruct (hint_of t), (chomp_of t); repeat constructor]|].
        assert (Forall no_nl (body t)) as Hb.
        { pose proof (split_on_free nl t) as Hf. unfold body. destruct (last _) as [[|]|]; [|done..].
          revert Hf. generalize (split_on nl t). intros l Hf. induction Hf as [|x l Hx Hf IH]; [constructor|].
          destruct l; [constructor|]. constructor; done. }
        induction Hb as [|l ls Hl _ IH]; [constructor|]. cbn. constructor; [|done].
        unfold indent. destruct l; [done|]. apply no_nl_app; [apply no_nl_repeat|done].
      + constructor; [|constructor]. apply no_nl_app; [done|]. apply no_nl_elem, (yo_line Y HY).
    - constructor; [|constructor]. apply no_nl_app; [done|]. by destruct Hv.
  Qed.

  Definition lines (c : config) : list bytes := concat (map (print_item Y) (items c)) ++ [[]].

  Lemma lines_ok c : Forall no_nl (lines c) /\ exists t l ls, lines c = (x63 :: t) :: l :: ls.
  Proof.
    split.
    - unfold lines. apply Forall_app_2; [|by repeat constructor]. apply Forall_concat, Forall_map. rewrite <- fst_flagged.
      apply Forall_map. eapply Forall_impl; [apply good_flagged|]. intros [i n] [H _]. by apply print_lines.
    - unfold lines, items. cbn [app map concat].
      assert (forall s, exists t ls, print_item Y (Item 0 (str "connectionUrl: ") (Text s)) = (x63 :: t) :: ls) as H.
      { intros s. unfold print_item. cbn [it_val]. destruct (is_block Y s); cbn; eauto. }
      destruct (H (url_text (cf_url c))) as (t & ls & ->). exists t. cbn [app].
      rewrite <- app_assoc. destruct ls as [|l ls]; [|by eexists _, _].
      match goal with |- context [print_item Y (Item 0 (str "pidFile: ") ?s)] =>
        destruct (print_item_head Y note_of note_of_read note_of_inside (Item 0 (str "pidFile: ") s)) as [-> _] end.
      cbn [app]. eauto.
  Qed.

  Lemma read_noted c : read_lines (notes note_of (lines c)) = entries Y (flagged c).
  Proof.
    unfold read_lines, lines, notes. rewrite map_app, concat_app, fold_left_app. cbn [map concat].
    destruct (read_items Y HY note_of note_of_read note_of_inside (flagged c)) with (s := RState [] None) as [H1 H2].
    - eapply Forall_impl; [apply good_flagged|]. by intros p [? ?].
    - apply chain_flagged.
    - done.
    - unfold flagged. cbn [app]. by destruct f.
    - cbv zeta in *. rewrite fst_flagged in *. unfold notes in *.
      set (s := fold_left rstep _ (RState [] None)) in *. rewrite note_of_inside by done. cbn [app fold_left].
      assert (last (flagged c) = Some (Item 0 (str "- ") (Text (to_b64url (s_cipher (cf_id c)))), false)) as El.
      { unfold flagged. cbn [app]. rewrite !last_cons, !last_app, !last_cons. done. }
      rewrite El in H2. destruct H2 as [out Ho].
      assert (r_block s = None) as Hb.
      { rewrite Ho. unfold item_state. cbn [it_val]. destruct (is_block Y _) eqn:E; [|done]. exfalso.
        apply andb_true_iff in E as [E _]. apply existsb_exists in E as (b & Hin & Hb). pose proof (b64_line (s_cipher (cf_id c))) as Hl.
        unfold no_nl in Hl. rewrite Forall_forall in Hl. rewrite Hl in Hb; [done|]. by apply elem_of_list_In. }
      unfold rstep. rewrite Hb. cbn [outside blank forallb orb flush r_block r_out].
      unfold flush in H1 at 1. rewrite Hb in H1. rewrite H1. unfold flagged. cbn [app]. by destruct f.
  Qed.
End Configs.

Lemma notes_plain ls : notes (note_of false) ls = ls.
Proof. unfold notes, note_of. induction ls as [|l ls IH]; [done|]. cbn in *. by rewrite IH. Qed.

Lemma grown_config_false Y c : grown_config Y false c = c.
Proof.
  unfold grown_config, grown. cbn [andb]. destruct c as [u p s fb]; cbn. f_equal.
  destruct fb as [[? [l|]]|]; try done. do 3 f_equal. induction l as [|a [|b l] IH]; try done. cbn in *. by rewrite IH.
Qed.

(** The text without comments is read as the configuration. *)
Theorem C46_plain :
  forall Y, YamlOk Y -> forall c, config_ok c -> from_bytes Y (yaml_text Y c) = Some c.
Proof.
  intros Y HY c Hc. unfold from_bytes, yaml_text. fold (lines Y c). destruct (lines_ok Y HY false c) as [H1 (t & l & ls & E)].
  rewrite split_join by (try done; by rewrite E). rewrite <- (notes_plain (lines Y c)), (read_noted Y HY false), (read_entries Y HY) by done.
  by rewrite grown_config_false.
Qed.
Print Assumptions C46_plain.

Lemma read_annotated Y (HY : YamlOk Y) c : config_ok c -> from_bytes Y (display Y c) = Some (grown_config Y true c).
Proof.
  intros Hc. unfold from_bytes, display, yaml_text. fold (lines Y c). destruct (lines_ok Y HY true c) as [H1 (t & l & ls & E)].
  rewrite (split_join (lines Y c)) by (try done; by rewrite E).
  assert (Forall no_nl (annotate (lines Y c))) as Ha.
  { rewrite E in *. cbn [annotate]. inversion H1 as [|? ? Hx Hr]; subst. constructor; [done|]. apply Forall_concat, Forall_map.
    eapply Forall_impl; [exact Hr|]. intros x Hl. apply Forall_app_2; [|by constructor].
    destruct (comments_cases x) as [->|_]; [constructor|]. unfold comments.
    repeat (destruct (starts_with _ x); [repeat (constructor; [by repeat constructor|]); constructor|]). constructor. }
  rewrite split_join by (try done; by rewrite E).
  rewrite <- (read_entries Y HY true c Hc), <- (read_noted Y HY true c). f_equal.
  rewrite E. unfold annotate, notes, read_lines. cbn [map concat]. do 2 f_equal. rewrite fold_left_app.
  cbn [fold_left]. f_equal. unfold note_of.
  destruct (comments_cases (x63 :: t)) as [Ec|(c' & cs & Ec & _)]; [by rewrite Ec|].
  symmetry. rewrite (comments_read _ _ true); [done|done|by rewrite Ec].
Qed.

(** ** The text with comments *)

(** The last argument of the fallback program. *)
Definition last_arg (fb : fallback) : option bytes := match fb with Some (_, Some l) => last l | _ => None end.

(** The texts that stand before a comment. *)
Definition before_comment (c : config) (s : bytes) : Prop :=
  s = cf_pid c \/ s = cf_store c \/ last_arg (cf_fallback c) = Some s.

Lemma grown_same Y s : is_block Y s = false \/ ~ ends_open s -> grown Y true s = s.
Proof.
  intros H. unfold grown. destruct (is_block Y s); [|done]. destruct H as [H|H]; [done|]. rewrite <- keep_open in H.
  destruct (chomp_of s); done.
Qed.

Lemma grown_config_same Y c : (forall s, before_comment c s -> grown Y true s = s) -> grown_config Y true c = c.
Proof.
  intros H. unfold grown_config. rewrite !H by (unfold before_comment; auto).
  assert (forall l, (forall s, last l = Some s -> grown Y true s = s) -> grown_last Y true l = l) as Hl.
  { intros l. induction l as [|a l IH]; intros Hs; [done|]. destruct l as [|b l]; [cbn; by rewrite Hs|].
    change (grown_last Y true (a :: b :: l)) with (a :: grown_last Y true (b :: l)). rewrite IH; [done|]. intros s Hs'. apply Hs. exact Hs'. }
  destruct c as [u p t fb d1 d2 d3 d4 d5 d6]. cbn [cf_url cf_pid cf_store cf_fallback cf_db_salt cf_salt cf_mem cf_ops cf_context cf_id] in *. f_equal.
  destruct fb as [[q [l|]]|]; try done. rewrite Hl; [done|]. intros s Hs. apply H. right; right. exact Hs.
Qed.

(** The text with comments is read as the configuration, unless one of the texts that stand before
    a comment is a single line break or ends in two. *)
Theorem C46_text_partial :
  forall Y, YamlOk Y -> forall c, config_ok c ->
    (forall s, before_comment c s -> ~ ends_open s) ->
    from_bytes Y (display Y c) = Some c.
Proof.
  intros Y HY c Hc H. rewrite read_annotated by done. f_equal. apply grown_config_same.
  intros s Hs. apply grown_same. right. by apply H.
Qed.
Print Assumptions C46_text_partial.

(** Those are all the texts with which it is not, if they are printed as blocks. *)
Theorem C46_text_iff :
  forall Y, YamlOk Y -> forall c, config_ok c ->
    (from_bytes Y (display Y c) = Some c <->
     forall s, before_comment c s -> existsb (is nl) s && y_block Y s = true -> ~ ends_open s).
Proof.
  intros Y HY c Hc. rewrite read_annotated by done. split.
  - intros [= H] s Hs Hb Ho%keep_open.
    assert (grown Y true s = s ++ [nl]) as Hg by (unfold grown, is_block; by rewrite Hb, Ho).
    assert (s <> s ++ [nl]) as Hn by (intros E%(f_equal length); rewrite app_length in E; cbn in E; lia).
    unfold grown_config in H. destruct c as [u p t fb d1 d2 d3 d4 d5 d6]. cbn [cf_url cf_pid cf_store cf_fallback] in *. injection H as Hp Ht Hfb.
    destruct Hs as [->|[->|Hs]]; cbn [cf_pid cf_store] in *; [congruence..|]. cbn [cf_fallback] in *.
    destruct fb as [[q [l|]]|]; cbn in Hs; try done. injection Hfb as Hl. clear - Hl Hs Hg Hn.
    induction l as [|a l IH]; [done|]. destruct l as [|b l]; [cbn in *; congruence|].
    apply IH; [by injection Hl|exact Hs].
  - intros H. f_equal. apply grown_config_same. intros s Hs. apply grown_same.
    destruct (is_block Y s) eqn:E; [right; by apply H|by left].
Qed.
Print Assumptions C46_text_iff.

(** ** A printer *)

(** Double quotes, with escapes; blocks where [yaml_emitter_analyze_scalar] allows them: no line
    ends in a space, and all characters are printable. *)
Definition quote0 : byte := x22.
Definition escape0 (b : byte) : bytes :=
  if is nl b then str "\n" else if is quote0 b || is x5c b then [x5c; b] else [b].
Fixpoint unescape0 (l : bytes) : option bytes :=
  match l with
  | [] => None
  | b :: [] => if is quote0 b then Some [] else None
  | b :: ((c :: l') as r) =>
      if is x5c b then s ← unescape0 l'; Some ((if is x6e c then nl else c) :: s)
      else s ← unescape0 r; Some (b :: s)
  end.
Fixpoint ends_space (s : bytes) : bool :=
  match s with
  | [] => false
  | [b] => is space b
  | a :: (b :: _) as r => (is space a && is nl b) || ends_space r
  end.
Definition yaml0 : Yaml := {|
  y_flow := fun s => quote0 :: concat (map escape0 s) ++ [quote0];
  y_unflow := fun l => match l with b :: l => if is quote0 b then unescape0 l else None | [] => None end;
  y_block := fun s => negb (ends_space s) && forallb (fun b => is nl b || ((32 <=? nb b)%N && (nb b <=? 126)%N)) s
|}.

Lemma unescape_cons b c l : b <> x5c -> unescape0 (b :: c :: l) = unescape0 (c :: l) ≫= fun s => Some (b :: s).
Proof. intros H. cbn [unescape0]. assert (is x5c b = false) as -> by (apply is_false; congruence). done. Qed.

Lemma yaml0_ok : YamlOk yaml0.
Proof.
  constructor; cbn [yaml0 y_flow y_unflow].
  - intros s. rewrite no_nl_elem. unfold no_nl. constructor; [done|]. apply Forall_app_2; [|by repeat constructor].
    apply Forall_concat, Forall_map, Forall_true. intros b. unfold escape0. destruct (is nl b) eqn:E; [by repeat constructor|].
    destruct (is quote0 b || _); by repeat constructor.
  - done.
  - intros s. rewrite is_refl. induction s as [|b s IH]; [done|]. cbn [map concat]. rewrite <- app_assoc.
    assert (exists c l, concat (map escape0 s) ++ [quote0] = c :: l) as (c & l & E) by (destruct (concat (map escape0 s)); eauto).
    unfold escape0 at 1. destruct (is nl b) eqn:E1.
    + apply is_true in E1 as <-. cbn [str app]. change (str "\n" ++ ?l) with (x5c :: x6e :: l). cbn [unescape0]. by rewrite IH.
    + destruct (is quote0 b || is x5c b) eqn:E2.
      * cbn [app unescape0]. rewrite IH. cbn. destruct (is x6e b) eqn:E3; [|done]. apply is_true in E3 as <-. done.
      * apply orb_false_iff in E2 as [_ E2]. rewrite is_false in E2. cbn [app]. rewrite E in *. rewrite unescape_cons by (by intros ->). by rewrite IH.
Qed.

Definition config0 (pid : bytes) : config :=
  Config (Url (Some [str "s"]) (Some (str "k=x")) None) pid (str "/d/store")
    (Some (str "/bin/signer", Some [str "a"; str "two\nlines"])) (repeat x01 16) (repeat x02 16) 8192 1
    (Sec (repeat x03 24) (repeat x04 49)) (Sec (repeat x05 24) (repeat x06 49)).

Lemma config0_ok pid : config_ok (config0 pid).
Proof. split; [exists (str "unix:///s?k=x"); vm_compute; reflexivity|]. repeat split. Qed.

(** A path that ends in two line breaks is read back with a third: the blank line put before the
    next comment is taken to be part of it.  Starting a server with the text then uses another
    pid file than the one configured. *)
Theorem C46_two_newlines_refuted :
  exists Y c c', YamlOk Y /\ config_ok c
    /\ from_bytes Y (yaml_text Y c) = Some c
    /\ from_bytes Y (display Y c) = Some c'
    /\ cf_pid c' = cf_pid c ++ [nl].
Proof.
  exists yaml0, (config0 (str "/d/pid" ++ [nl; nl])), (config0 (str "/d/pid" ++ [nl; nl; nl])).
  split; [apply yaml0_ok|]. split; [apply config0_ok|]. split; [|split]; vm_compute; reflexivity.
Qed.
Print Assumptions C46_two_newlines_refuted.

(** A path that ends in one line break, and one of a single line. *)
Example C46_ex :
  (forall s, before_comment (config0 (str "/d/pid" ++ [nl])) s -> ~ ends_open s)
  /\ display yaml0 (config0 (str "/d/pid" ++ [nl])) <> yaml_text yaml0 (config0 (str "/d/pid" ++ [nl]))
  /\ is_block yaml0 (str "/d/pid" ++ [nl]) = true
  /\ from_bytes yaml0 (display yaml0 (config0 (str "/d/pid"))) = Some (config0 (str "/d/pid")).
Proof.
  split; [|split; [|split]].
  - intros s Hs Ho%keep_open. destruct Hs as [->|[->|[= <-]]]; vm_compute in Ho; done.
  - assert (beq (display yaml0 (config0 (str "/d/pid" ++ [nl]))) (yaml_text yaml0 (config0 (str "/d/pid" ++ [nl]))) = false) as H
      by (vm_compute; reflexivity). by apply beq_false.
  - vm_compute. reflexivity.
  - vm_compute. reflexivity.
Qed.
