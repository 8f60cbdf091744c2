(** The hex text, the hex dump and the test vector reader do what SpecTest says. *)
From Coq Require Import Strings.String List Arith NArith Bool Lia Strings.Byte.
From Verif Require Import Base BaseFacts Res TestUtils SpecTest.
Import ListNotations.
Open Scope N_scope.
Open Scope list_scope.

(** ** Hex *)

Lemma digit_value_digit c : digit_value c = digit c.
Proof. destruct c; reflexivity. Qed.
Lemma digit_lt c h : digit c = Some h -> h < 16.
Proof. destruct c; vm_compute; intros E; inversion E; reflexivity. Qed.
Lemma put_two b : exists c d h k, put_hex 2 (b2n b) = [c; d] /\ digit c = Some h /\ digit d = Some k /\ b2n b = 16 * h + k /\ lower_hex [c; d].
Proof. exists (hex_digit (b2n b / 16)), (hex_digit (b2n b mod 16)), (b2n b / 16), (b2n b mod 16).
  splits; [| | |lia|]; destruct b; try reflexivity; (repeat apply Forall_cons; [..|apply Forall_nil]); vm_compute; tauto. Qed.
Lemma hex_is_text bs : hex_text (hex bs) bs.
Proof. induction bs as [|b bs IH]; simpl; [constructor|]. destruct (put_two b) as (c & d & h & k & E & Hc & Hd & Hb & _). rewrite E.
  econstructor; eassumption. Qed.
Lemma hex_lower bs : lower_hex (hex bs).
Proof. induction bs as [|b bs IH]; simpl; [constructor|]. destruct (put_two b) as (c & d & h & k & E & _ & _ & _ & L). rewrite E.
  apply Forall_app. now split. Qed.

Lemma from_chars_pair c d :
  from_chars_u8 [c; d] = match digit c, digit d with
    | Some h, Some k => Some (16 * h + k) | Some h, None => Some h | None, _ => None end.
Proof. unfold from_chars_u8, leading_digits. rewrite !digit_value_digit. destruct (digit c) as [h|] eqn:Hc; [|reflexivity].
  apply digit_lt in Hc. destruct (digit d) as [k|] eqn:Hd.
  - apply digit_lt in Hd. unfold fold_left. rewrite (proj2 (N.ltb_lt _ _)) by lia. reflexivity || (f_equal; lia).
  - unfold fold_left. rewrite (proj2 (N.ltb_lt _ _)) by lia. reflexivity || (f_equal; lia). Qed.

Lemma hex_loop_app k : forall i s t acc, i = len s -> (length t = 2 * k)%nat ->
  forall bs, hex_loop k i (s ++ t) acc = Some bs <-> exists l, bs = acc ++ l /\ loose_hex_text t l.
Proof. induction k as [|k IH]; intros i s t acc Hi Ht bs.
  - destruct t; [|discriminate]. simpl. split.
    + intros [= <-]. exists []. rewrite app_nil_r. split; [reflexivity|constructor].
    + intros (l & -> & H). inversion H. now rewrite app_nil_r.
  - destruct t as [|c [|d t]]; [simpl in Ht; lia..|]. simpl hex_loop. subst i.
    rewrite dropN_app_len. change (takeN 2 (c :: d :: t)) with [c; d]. rewrite from_chars_pair.
    replace (s ++ c :: d :: t) with ((s ++ [c; d]) ++ t) by now rewrite <- app_assoc.
    assert (R : forall v, v < 256 -> hex_loop k (len s + 2) ((s ++ [c; d]) ++ t) (acc ++ [n2b v]) = Some bs <->
                exists l, bs = acc ++ n2b v :: l /\ loose_hex_text t l).
    { intros v Hv. rewrite (IH (len s + 2) (s ++ [c; d]) t); [|now lens|simpl in Ht; lia].
      split; intros (l & -> & H); exists l; (split; [now rewrite <- app_assoc|assumption]). }
    destruct (digit c) as [h|] eqn:Hc; [pose proof (digit_lt _ _ Hc); destruct (digit d) as [j|] eqn:Hd; [pose proof (digit_lt _ _ Hd)|]|].
    + rewrite R by lia. split; intros (l & -> & H1).
      * eexists. split; [reflexivity|]. econstructor; eauto. rewrite b2n_n2b_small; lia.
      * inversion H1; subst; [|congruence]. exists l0. split; [|assumption]. do 2 f_equal. rewrite <- (n2b_b2n b). f_equal. congruence.
    + rewrite R by lia. split; intros (l & -> & H1).
      * eexists. split; [reflexivity|]. eapply loose_bad; eauto. rewrite b2n_n2b_small; lia.
      * inversion H1; subst; [congruence|]. exists l0. split; [|assumption]. do 2 f_equal. rewrite <- (n2b_b2n b). f_equal. congruence.
    + split; [discriminate|]. intros (l & -> & H1). inversion H1; subst; congruence. Qed.

Lemma loose_even s l : loose_hex_text s l -> (length s = 2 * length l)%nat.
Proof. induction 1; simpl; lia. Qed.
Theorem hex_parse_ok s bs : hex_string_parse s = Some bs <-> loose_hex_text s bs.
Proof. unfold hex_string_parse. destruct (N.eqb_spec (len s) 0) as [E|E].
  - apply len_0 in E. subst. split; [intros [= <-]; constructor|now inversion 1].
  - destruct (N.eqb_spec (len s mod 2) 0) as [M|M]; simpl negb; cbv iota.
    + rewrite (hex_loop_app (N.to_nat (len s / 2)) 0 [] s []); [|reflexivity|rewrite length_len; lia]. simpl.
      split; [now intros (l & -> & H)|eauto].
    + split; [discriminate|]. intros H. apply loose_even in H. rewrite length_len in H. lia. Qed.
Lemma strict_loose s l : hex_text s l -> loose_hex_text s l.
Proof. induction 1; econstructor; eauto. Qed.

(** ** Hex dump *)

Lemma land_15 i : N.land i 15 = i mod 16.
Proof. change 15 with (N.ones 4). now rewrite N.land_ones. Qed.
Lemma land_7 i : N.land i 7 = i mod 8.
Proof. change 7 with (N.ones 3). now rewrite N.land_ones. Qed.
Definition sep (k : N) : list byte := if k =? 0 then [newline] else if k =? 8 then [space; space] else [space].
Lemma loop_cons i b l : hexdump_loop i (b :: l) = sep (i mod 16) ++ put_hex 2 (b2n b) ++ hexdump_loop (i + 1) l.
Proof. cbn [hexdump_loop]. rewrite land_15, land_7. unfold sep. destruct (N.eqb_spec (i mod 16) 0); [reflexivity|].
  destruct (N.eqb_spec (i mod 16) 8), (N.eqb_spec (i mod 8) 0); try reflexivity; lia. Qed.
Fixpoint within (show : byte -> list byte) (k : N) (l : list byte) : list byte :=
  match l with [] => [] | b :: l => sep k ++ show b ++ within show (k + 1) l end.
Lemma loop_within l : forall m k rest, k + len l <= 16 ->
  hexdump_loop (16 * m + k) (l ++ rest) = within (fun b => put_hex 2 (b2n b)) k l ++ hexdump_loop (16 * m + k + len l) rest.
Proof. induction l as [|b l IH]; intros m k rest H; simpl app.
  - rewrite N.add_0_r. reflexivity.
  - lens. rewrite loop_cons. replace ((16 * m + k) mod 16) with k by lia. cbn [within]. rewrite <- !app_assoc. do 2 f_equal.
    rewrite <- N.add_assoc, IH by lia. f_equal. f_equal. lia. Qed.
Lemma row_line show r : r <> [] -> (List.length r <= 16)%nat -> within show 0 r = newline :: dump_line show r.
Proof. intros Hr Hl. do 17 (let b := fresh "b" in destruct r as [|b r]; [first [congruence|unfold dump_line; cbn [within skipn firstn map join]; unfold sep;
    cbn -[app]; rewrite ?app_nil_r, <- ?app_assoc; reflexivity]|]).
  exfalso. simpl in Hl. lia. Qed.
Lemma loop_rows l rs : rows l rs -> forall m, l <> [] ->
  hexdump_loop (16 * m) l = newline :: join [newline] (map (dump_line (fun b => put_hex 2 (b2n b))) rs).
Proof. induction 1 as [|r Hr Hl|r l rs Hl H IH]; intros m Hn; [congruence| |].
  - pose proof (loop_within r m 0 []) as E. rewrite N.add_0_r, !app_nil_r in E. rewrite E by (unfold len; lia).
    rewrite row_line by (assumption || lia). simpl. rewrite ?app_nil_r. reflexivity.
  - pose proof (loop_within r m 0 l) as E. rewrite N.add_0_r in E. rewrite E by (unfold len; lia).
    rewrite row_line; [|now intros ->|lia]. replace (16 * m + len r) with (16 * (m + 1)) by (unfold len; lia).
    destruct l as [|b l].
    + inversion H; subst; [simpl; now rewrite app_nil_r|congruence|]. apply (f_equal (@List.length _)) in H0. rewrite app_length in H0. simpl in H0. lia.
    + rewrite IH by discriminate. destruct rs; [inversion H|]. reflexivity. Qed.
Lemma dump_line_ext f g r : (forall b, f b = g b) -> dump_line f r = dump_line g r.
Proof. intros H. unfold dump_line. rewrite !(fun l => map_ext f g H l). destruct (skipn 8 r); [reflexivity|]. now rewrite (map_ext f g H). Qed.
Theorem hexdump_ok l rs : rows l rs -> hexdump l = join [newline] (map (dump_line (fun b => hex [b])) rs).
Proof. intros H. assert (S : forall b, hex [b] = put_hex 2 (b2n b)) by (intros; simpl; apply app_nil_r).
  replace (map (dump_line (fun b => hex [b])) rs) with (map (dump_line (fun b => put_hex 2 (b2n b))) rs).
  2:{ apply map_ext. intros r. apply dump_line_ext. intros b. symmetry. apply S. }
  destruct l as [|b l].
  - inversion H; subst; [reflexivity|congruence|]. apply (f_equal (@List.length _)) in H0. rewrite app_length in H0. simpl in H0. lia.
  - assert (E := loop_rows _ _ H 0 ltac:(discriminate)). change (16 * 0) with 0 in E. rewrite loop_cons in E.
    change (sep (0 mod 16)) with [newline] in E. injection E as E. exact E. Qed.
Lemma rows_exist l : exists rs, rows l rs.
Proof. remember (List.length l) as n. assert (L : (List.length l <= n)%nat) by lia. clear Heqn. revert l L.
  induction n as [|n IH]; intros l L; [destruct l; [eexists; constructor|simpl in L; lia]|].
  destruct l as [|b l]; [eexists; constructor|]. destruct (Nat.lt_ge_cases (List.length (b :: l)) 16) as [S|S].
  - eexists. constructor; [discriminate|assumption].
  - destruct (IH (skipn 16 (b :: l))) as (rs & R); [rewrite skipn_length; simpl in *; lia|].
    exists (firstn 16 (b :: l) :: rs). rewrite <- (firstn_skipn 16 (b :: l)) at 1. constructor; [|assumption].
    rewrite firstn_length, Nat.min_l; [reflexivity|exact S]. Qed.
Lemma rows_concat l rs : rows l rs -> List.concat rs = l.
Proof. induction 1; simpl; [reflexivity|apply app_nil_r|congruence]. Qed.

(** ** Lines *)

Lemma find_first_none p s : (forall c, In c s -> p c = false) -> find_first p s = None.
Proof. induction s as [|c s IH]; intros H; [reflexivity|]. simpl. rewrite (H c) by now left. rewrite IH; [reflexivity|]. intros d Hd. apply H. now right. Qed.
Lemma find_first_app p a c b : (forall x, In x a -> p x = false) -> p c = true -> find_first p (a ++ c :: b) = Some (len a).
Proof. intros H Hc. induction a as [|x a IH]; simpl; [now rewrite Hc|]. rewrite (H x) by now left.
  rewrite IH by (intros y Hy; apply H; now right). simpl. f_equal. now rewrite len_cons. Qed.
Lemma find_last_none p s : (forall c, In c s -> p c = false) -> find_last p s = None.
Proof. induction s as [|c s IH]; intros H; [reflexivity|]. simpl. rewrite IH by (intros d Hd; apply H; now right). now rewrite (H c) by now left. Qed.
Lemma find_last_app p a c b : (forall x, In x b -> p x = false) -> p c = true -> find_last p (a ++ c :: b) = Some (len a).
Proof. intros H Hc. induction a as [|x a IH]; simpl; [now rewrite find_last_none, Hc|]. rewrite IH. f_equal. now rewrite len_cons. Qed.
Lemma split_first p (s : list byte) : (forall c, In c s -> p c = false) \/ exists a c b, s = a ++ c :: b /\ (forall x, In x a -> p x = false) /\ p c = true.
Proof. induction s as [|c s IH]; [now left|]. destruct (p c) eqn:E.
  - right. exists [], c, s. repeat split; [easy|assumption].
  - destruct IH as [IH|(a & d & b & -> & H & Hd)].
    + left. intros x [<-|H]; auto.
    + right. exists (c :: a), d, b. repeat split; [|assumption]. intros x [<-|Hx]; auto. Qed.

Lemma is_spec c d : is c d = true <-> d = c.
Proof. unfold is. rewrite byte_eqb_eq. split; congruence. Qed.
Lemma is_not c d : is c d = false <-> d <> c.
Proof. pose proof (is_spec c d) as H. destruct (is c d); split; intros; try congruence; [intuition congruence|]. intros E. apply H in E. congruence. Qed.
Lemma blank_spec c : blank c = true <-> c = space \/ c = x09.
Proof. unfold blank. rewrite orb_true_iff, !is_spec. reflexivity. Qed.
Lemma blank_not c : blank c = false <-> c <> space /\ c <> x09.
Proof. pose proof (blank_spec c). destruct (blank c); intuition congruence. Qed.

Lemma blanks_no b c : blanks b -> In c b -> negb (blank c) = false.
Proof. intros H Hc. unfold blanks in H. rewrite Forall_forall in H. apply H in Hc. apply blank_spec in Hc. now rewrite Hc. Qed.
Lemma trim_ok b1 k b2 : blanks b1 -> blanks b2 -> tight k -> trim (b1 ++ k ++ b2) = k.
Proof. intros H1 H2 [->|[Hf Hl]]; unfold trim.
  - rewrite find_first_none; [reflexivity|]. intros c Hc. apply in_app_or in Hc. destruct Hc; [exact (blanks_no b1 c H1 H)|exact (blanks_no b2 c H2 H)].
  - destruct k as [|c t].
    { rewrite find_first_none; [reflexivity|]. intros c Hc. apply in_app_or in Hc. destruct Hc; [exact (blanks_no b1 c H1 H)|exact (blanks_no b2 c H2 H)]. }
    destruct (exists_last (l := c :: t)) as (t' & c' & E); [discriminate|].
    rewrite <- app_comm_cons. rewrite find_first_app; [|intros x Hx; first [exact (blanks_no b1 x H1 Hx)|exact (blanks_no b2 x H2 Hx)]|].
    2:{ apply negb_true_iff, blank_not. eapply Hf; reflexivity. }
    rewrite app_comm_cons. rewrite E at 1. rewrite <- app_assoc. simpl (([c'] ++ b2)). rewrite app_assoc.
    rewrite find_last_app; [|intros x Hx; first [exact (blanks_no b1 x H1 Hx)|exact (blanks_no b2 x H2 Hx)]|].
    2:{ apply negb_true_iff, blank_not. eapply Hl. exact E. }
    rewrite dropN_app_len. apply (f_equal len) in E. lens.
    replace (len b1 + len t' - len b1 + 1) with (len (c :: t)) by (lens; lia). apply takeN_app_len. Qed.
Lemma tight_split s : exists b1 k b2, s = b1 ++ k ++ b2 /\ blanks b1 /\ blanks b2 /\ tight k.
Proof. assert (F : exists b r, s = b ++ r /\ blanks b /\ (forall c t, r = c :: t -> c <> space /\ c <> x09)).
  { induction s as [|c s (b & r & -> & Hb & Hr)]; [exists [], []; repeat split; [constructor|discriminate..]|].
    destruct (blank c) eqn:E.
    - exists (c :: b), r. repeat split; [constructor; [now apply blank_spec|assumption]|eapply Hr; eassumption..].
    - exists [], (c :: b ++ r). apply blank_not in E. repeat split; [constructor|injection H as <- <-; tauto..]. }
  destruct F as (b1 & r & -> & H1 & Hf). exists b1.
  assert (L : exists k b, r = k ++ b /\ blanks b /\ (forall c t, k = t ++ [c] -> c <> space /\ c <> x09)).
  { clear. induction r as [|c r IH] using rev_ind; [exists [], []; repeat split; [constructor|destruct t; discriminate..]|].
    destruct IH as (k & b & -> & Hb & Hk). destruct (blank c) eqn:E.
    - exists k, (b ++ [c]). repeat split; [now rewrite app_assoc|apply Forall_app; split; [assumption|constructor; [now apply blank_spec|constructor]]|eapply Hk; eassumption..].
    - exists ((k ++ b) ++ [c]), []. apply blank_not in E. split; [now rewrite app_nil_r|]. split; [constructor|].
      intros d t H. apply app_inj_tail in H. destruct H as [_ <-]. exact E. }
  destruct L as (k & b2 & -> & H2 & Hl). exists k, b2. repeat split; [assumption..|]. right. split; [|assumption].
  intros c t ->. eapply Hf. reflexivity. Qed.

Definition no (c : byte) (s : list byte) : Prop := forall x, In x s -> x <> c.
Lemma no_app c a b : no c a -> no c b -> no c (a ++ b).
Proof. intros A B x Hx. apply in_app_or in Hx. destruct Hx; auto. Qed.
Lemma blanks_free c b : c <> space -> c <> x09 -> blanks b -> no c b.
Proof. intros N1 N2 H x Hx ->. unfold blanks in H. rewrite Forall_forall in H. destruct (H _ Hx); congruence. Qed.
Lemma free_no c cs s : free_of cs s -> In c cs -> no c s.
Proof. intros H Hc x Hx ->. exact (H _ Hx Hc). Qed.
Lemma no_is c s : no c s -> forall x, In x s -> is c x = false.
Proof. intros H x Hx. apply is_not. auto. Qed.
Definition cut (s : str) : str := match find_first (is ch_hash) s with Some end_ => takeN end_ s | None => s end.
Lemma cut_ok t c : no ch_hash t -> comment c -> cut (t ++ c) = t.
Proof. intros Ht [->|(u & ->)]; unfold cut.
  - rewrite app_nil_r, find_first_none; [reflexivity|]. now apply no_is.
  - simpl. rewrite find_first_app; [|now apply no_is|reflexivity]. apply takeN_app_len. Qed.
Lemma with_cut s : trim_and_remove_comments s =
  match find_first (is ch_colon) (cut s) with None => None | Some p => Some (trim (takeN p (cut s)), trim (dropN (p + 1) (cut s))) end.
Proof. reflexivity. Qed.
Lemma says_ok l k v : says l k v -> trim_and_remove_comments l = Some (k, v).
Proof. intros (b1 & b2 & b3 & b4 & c & -> & H1 & H2 & H3 & H4 & Hc & Tk & Tv & Fk & Fv).
  rewrite with_cut.
  replace (b1 ++ k ++ b2 ++ text ":"%string ++ b3 ++ v ++ b4 ++ c) with ((b1 ++ k ++ b2 ++ text ":"%string ++ b3 ++ v ++ b4) ++ c) by now rewrite <- !app_assoc.
  rewrite cut_ok; [| |assumption].
  2:{ repeat apply no_app; try (apply blanks_free; [discriminate..|assumption]).
      - eapply free_no; [exact Fk|vm_compute; tauto].
      - intros x [<-|[]]. discriminate.
      - eapply free_no; [exact Fv|vm_compute; tauto]. }
  replace (b1 ++ k ++ b2 ++ text ":"%string ++ b3 ++ v ++ b4) with ((b1 ++ k ++ b2) ++ ch_colon :: b3 ++ v ++ b4) by now rewrite <- !app_assoc.
  rewrite find_first_app; [| |reflexivity].
  2:{ apply no_is. repeat apply no_app; try (apply blanks_free; [discriminate..|assumption]). eapply free_no; [exact Fk|vm_compute; tauto]. }
  rewrite takeN_app_len, trim_ok by assumption.
  rewrite dropN_app_r by lia. replace (len (b1 ++ k ++ b2) + 1 - len (b1 ++ k ++ b2)) with 1 by lia.
  change (dropN 1 (ch_colon :: b3 ++ v ++ b4)) with (b3 ++ v ++ b4). now rewrite trim_ok by assumption. Qed.
Lemma silent_ok l : silent l -> trim_and_remove_comments l = None.
Proof. intros (t & c & -> & F & Hc). rewrite with_cut.
  rewrite cut_ok; [|eapply free_no; [exact F|vm_compute; tauto]|assumption].
  rewrite find_first_none; [reflexivity|]. apply no_is. eapply free_no; [exact F|vm_compute; tauto]. Qed.
Lemma comment_split s : exists t c, s = t ++ c /\ no ch_hash t /\ comment c.
Proof. destruct (split_first (is ch_hash) s) as [H|(a & c & b & -> & Ha & Hc)].
  - exists s, []. repeat split; [now rewrite app_nil_r|intros x Hx; apply is_not; auto|now left].
  - apply is_spec in Hc. subst c. exists a, (ch_hash :: b). repeat split; [intros x Hx; apply is_not; auto|]. right. now exists b. Qed.
Lemma says_or_silent l : (exists k v, says l k v) \/ silent l.
Proof. destruct (comment_split l) as (t & c & -> & Ht & Hc). destruct (split_first (is ch_colon) t) as [H|(a & d & b & -> & Ha & Hd)].
  - right. exists t, c. repeat split; [|assumption]. intros x Hx [<-|[<-|[]]].
    + specialize (H _ Hx). now apply is_not in H.
    + exact (Ht _ Hx eq_refl).
  - left. apply is_spec in Hd. subst d. destruct (tight_split a) as (b1 & k & b2 & -> & H1 & H2 & Tk).
    destruct (tight_split b) as (b3 & v & b4 & -> & H3 & H4 & Tv). exists k, v, b1, b2, b3, b4, c. splits; try assumption.
    + rewrite <- !app_assoc. simpl. now rewrite <- !app_assoc.
    + intros x Hx [<-|[<-|[]]].
      * assert (I : In x3a (b1 ++ k ++ b2)) by (rewrite !in_app_iff; auto). specialize (Ha _ I). now apply is_not in Ha.
      * apply (Ht x23); [|reflexivity]. rewrite !in_app_iff. auto.
    + intros x Hx [<-|[]]. apply (Ht x23); [|reflexivity]. rewrite !in_app_iff. simpl. rewrite !in_app_iff. auto. Qed.
Lemma pairs_exist ls : exists ps, pairs ls ps.
Proof. induction ls as [|l ls (ps & IH)]; [eexists; constructor|]. destruct (says_or_silent l) as [(k & v & H)|H]; [exists ((k, v) :: ps); now apply pairs_says|exists ps; now apply pairs_silent]. Qed.
Lemma lines_exist s : exists ls, lines s ls.
Proof. induction s as [|c s (ls & H)]; [eexists; constructor|]. destruct (Byte.byte_eq_dec c newline) as [->|E].
  - exists ([] :: ls). now apply (lines_cons []).
  - inversion H as [|l Hl Hn|l t ls' Hn Ht]; subst.
    + exists [[c]]. constructor; [discriminate|]. intros [I|[]]. congruence.
    + exists [c :: s]. constructor; [discriminate|]. intros [I|I]; [congruence|contradiction].
    + exists ((c :: l) :: ls'). rewrite app_comm_cons. constructor; [|assumption]. intros [I|I]; [congruence|contradiction]. Qed.
Lemma file_pairs_exist s : exists ps, file_pairs s ps.
Proof. destruct (lines_exist s) as (ls & H). destruct (pairs_exist ls) as (ps & P). exists ps, ls. now split. Qed.

Lemma not_in_no c s : ~ In c s -> no c s.
Proof. intros H x Hx ->. contradiction. Qed.
Lemma getline_ok s l ls : lines s (l :: ls) -> exists s', getline s = Some (l, s') /\ lines s' ls /\ (length s' < length s)%nat.
Proof. intros H. inversion H as [|m Hl Hn|m t ls' Hn Ht]; subst.
  - exists []. destruct l as [|c l]; [congruence|]. unfold getline. rewrite find_first_none by now apply no_is, not_in_no.
    repeat split; [constructor|simpl; lia].
  - exists t. unfold getline. rewrite find_first_app; [|now apply no_is, not_in_no|reflexivity].
    rewrite takeN_app_len, dropN_app_r by lia. replace (len l + 1 - len l) with 1 by lia. change (dropN 1 (newline :: t)) with t.
    destruct (l ++ newline :: t) eqn:E; [destruct l; discriminate|]. rewrite <- E. repeat split; [assumption|]. rewrite app_length. simpl. lia. Qed.
Lemma next_pair_ok ls ps : pairs ls ps -> forall s, lines s ls -> forall fuel, (length s < fuel)%nat ->
  match ps with
  | [] => next_pair_loop fuel s = Ret (None, [])
  | p :: ps => exists s', next_pair_loop fuel s = Ret (Some p, s') /\ file_pairs s' ps
  end.
Proof. induction 1 as [|l ls k v ps Hl Hp IH|l ls ps Hl Hp IH]; intros s Hs fuel Hf; (destruct fuel as [|fuel]; [lia|]); simpl.
  - now inversion Hs.
  - destruct (getline_ok _ _ _ Hs) as (s' & -> & L & _). exists s'. rewrite (says_ok _ _ _ Hl). split; [reflexivity|]. exists ls. now split.
  - destruct (getline_ok _ _ _ Hs) as (s' & -> & L & Hlen). rewrite (silent_ok _ Hl). apply IH; [assumption|lia]. Qed.
Lemma next_pair_nil s : file_pairs s [] -> n20_testing_next_pair s = Ret (None, []).
Proof. intros (ls & L & P). exact (next_pair_ok _ _ P _ L (S (length s)) ltac:(lia)). Qed.
Lemma next_pair_cons s p ps : file_pairs s (p :: ps) -> exists s', n20_testing_next_pair s = Ret (Some p, s') /\ file_pairs s' ps.
Proof. intros (ls & L & P). exact (next_pair_ok _ _ P _ L (S (length s)) ltac:(lia)). Qed.
Lemma lines_length s ls : lines s ls -> (length ls <= length s)%nat.
Proof. induction 1; simpl; [lia|destruct l; [congruence|simpl; lia]|rewrite app_length; simpl; lia]. Qed.
Lemma pairs_length ls ps : pairs ls ps -> (length ps <= length ls)%nat.
Proof. induction 1; simpl; lia. Qed.

(** ** The reader *)

Section Reader.
Context {V : Type}.
Definition plain (f : field V) : list byte * (list byte -> option V) := (f_key f, f_parse f).
Definition outcome_of (r : result V) : outcome V :=
  match r with All l => Vectors (map (map Some) l) | BadKey => Throws UnexpectedKey | BadValue => Throws ParsingError end.

Lemma next_fields_error fs : forall e s, is_error e = true -> exists vs, next_fields (V := V) fs e s = Ret (vs, e, s).
Proof. induction fs as [|f fs IH]; intros e s H; simpl; [now eexists|]. unfold next_field. rewrite H. simpl.
  destruct (IH e s H) as (vs & ->). simpl. now eexists. Qed.
Lemma next_fields_good done : forall g xs later s ps, good (map plain done) g xs -> file_pairs s (g ++ ps) ->
  exists s', file_pairs s' ps /\
    next_fields (done ++ later) None_ s = bind (next_fields later None_ s') (fun '(vs, e, t) => Ret (map Some xs ++ vs, e, t)).
Proof. induction done as [|f done IH]; intros g xs later s ps G H; inversion G as [|f0 fs0 p g' x xs' Hfit G' E1 E2 E3]; subst; simpl.
  - exists s. split; [assumption|]. destruct (next_fields later None_ s) as [[[? ?] ?]| |]; reflexivity.
  - rewrite <- app_comm_cons in H. destruct (next_pair_cons _ _ _ H) as (s' & E & Hs'). destruct p as [k v].
    destruct Hfit as [Hk Hv]. simpl in Hk, Hv. subst k. unfold next_field at 1. simpl. rewrite E. simpl.
    destruct (list_eq_dec _ (f_key f) (f_key f)); [|congruence]. simpl. rewrite Hv. simpl.
    destruct (IH _ _ later _ _ G' Hs') as (s'' & Hs'' & ->). exists s''. split; [assumption|].
    destruct (next_fields later None_ s'') as [[[? ?] ?]| |]; reflexivity. Qed.
Lemma good_length (fs : list (list byte * (list byte -> option V))) g xs : good fs g xs -> length g = length fs /\ length xs = length fs.
Proof. induction 1; simpl; lia. Qed.

Lemma plain_split fs done f later : map plain fs = done ++ f :: later ->
  exists d f' l, fs = d ++ f' :: l /\ map plain d = done /\ plain f' = f /\ map plain l = later.
Proof. intros H. apply map_eq_app in H. destruct H as (d & r & -> & Hd & Hr). apply map_eq_cons in Hr. destruct Hr as (f' & l & -> & Hf & Hl).
  exists d, f', l. now splits. Qed.
Lemma next_vector_cons fs s : fs <> [] ->
  next_vector fs s = bind (next_fields (V := V) fs None_ s) (fun '(vs, e, t) => Ret (if is_error e then (inl e, t) else (inr vs, t))).
Proof. destruct fs; [congruence|reflexivity]. Qed.
Lemma read_nonempty (fs : list (list byte * (list byte -> option V))) ps r : read fs ps r -> fs <> [].
Proof. induction 1 as [done f later ? ? ->|g xs ps l G R IH|done f later ? ? ? ? ->|done f later ? ? ? ? ->|g xs ps r G R IH D]; (exact IH || destruct done; discriminate). Qed.
Theorem read_loop_ok fs ps r : read (map plain fs) ps r -> forall s fuel acc, file_pairs s ps -> (length ps < fuel)%nat ->
  read_loop fuel fs s acc = Ret (match outcome_of r with Vectors l => Vectors (acc ++ l) | o => o end).
Proof. induction 1 as [done f later ps xs E G|g xs ps l G R IH|done f later g xs p ps E G K|done f later g xs p ps E G K B|g xs ps r G R IH D];
    intros s fuel acc H F; (destruct fuel as [|fuel]; [lia|]); cbn [read_loop].
  - apply plain_split in E. destruct E as (d & f' & l & -> & <- & <- & <-). rewrite next_vector_cons by (destruct d; discriminate).
    rewrite <- (app_nil_r ps) in H. destruct (next_fields_good _ _ _ (f' :: l) _ _ G H) as (s' & Hs & ->).
    simpl. unfold next_field. simpl. rewrite (next_pair_nil _ Hs). simpl.
    destruct (next_fields_error l EndOfFile [] eq_refl) as (vs & ->). simpl. now rewrite app_nil_r.
  - assert (N : fs <> []) by (intros ->; now apply read_nonempty in R).
    rewrite next_vector_cons by assumption. rewrite <- (app_nil_r fs).
    destruct (next_fields_good _ _ _ [] _ _ G H) as (s' & Hs & ->). simpl. rewrite app_nil_r.
    rewrite (IH s'); [|assumption|]. { simpl. rewrite app_nil_r, <- app_assoc. reflexivity. }
    apply good_length in G. rewrite map_length in G. rewrite app_length in F. destruct fs; [congruence|]. simpl in *. lia.
  - apply plain_split in E. destruct E as (d & f' & l & -> & <- & <- & <-). rewrite next_vector_cons by (destruct d; discriminate).
    destruct (next_fields_good _ _ _ (f' :: l) _ _ G H) as (s' & Hs & ->). destruct (next_pair_cons _ _ _ Hs) as (s'' & E & _).
    simpl. unfold next_field. simpl. rewrite E. simpl. destruct p as [k v]. simpl in K.
    destruct (list_eq_dec _ k (f_key f')); [contradiction|]. simpl.
    destruct (next_fields_error l UnexpectedKey s'' eq_refl) as (vs & ->). reflexivity.
  - apply plain_split in E. destruct E as (d & f' & l & -> & <- & <- & <-). rewrite next_vector_cons by (destruct d; discriminate).
    destruct (next_fields_good _ _ _ (f' :: l) _ _ G H) as (s' & Hs & ->). destruct (next_pair_cons _ _ _ Hs) as (s'' & E & _).
    simpl. unfold next_field. simpl. rewrite E. simpl. destruct p as [k v]. simpl in K, B.
    destruct (list_eq_dec _ k (f_key f')); [|contradiction]. simpl. rewrite B. simpl.
    destruct (next_fields_error l ParsingError s'' eq_refl) as (vs & ->). reflexivity.
  - assert (N : fs <> []) by (intros ->; now apply read_nonempty in R).
    rewrite next_vector_cons by assumption. rewrite <- (app_nil_r fs).
    destruct (next_fields_good _ _ _ [] _ _ G H) as (s' & Hs & ->). simpl. rewrite app_nil_r.
    rewrite (IH s'); [|assumption|]. { destruct D as [-> | ->]; reflexivity. }
    apply good_length in G. rewrite map_length in G. rewrite app_length in F. destruct fs; [congruence|]. simpl in *. lia. Qed.

(** Every list of pairs reads as something, for at least one field. *)
Lemma next_good (fs : list (list byte * (list byte -> option V))) : forall ps,
  (exists g xs rest, ps = g ++ rest /\ good fs g xs) \/
  (exists done f later xs, fs = done ++ f :: later /\ good done ps xs) \/
  (exists done f later g xs p rest, fs = done ++ f :: later /\ ps = g ++ p :: rest /\ good done g xs /\
     (fst p <> fst f \/ fst p = fst f /\ snd f (snd p) = None)).
Proof. induction fs as [|f fs IH]; intros ps.
  - left. exists [], [], ps. split; [reflexivity|constructor].
  - destruct ps as [|p ps].
    { right; left. exists [], f, fs, []. split; [reflexivity|constructor]. }
    destruct (list_eq_dec Byte.byte_eq_dec (fst p) (fst f)) as [K|K].
    2:{ right; right. exists [], f, fs, [], [], p, ps. repeat split; [constructor|now left]. }
    destruct (snd f (snd p)) as [x|] eqn:B.
    2:{ right; right. exists [], f, fs, [], [], p, ps. repeat split; [constructor|now right]. }
    destruct (IH ps) as [(g & xs & rest & -> & G)|[(done & f' & later & xs & -> & G)|(done & f' & later & g & xs & q & rest & -> & -> & G & Q)]].
    + left. exists (p :: g), (x :: xs), rest. split; [reflexivity|]. constructor; [now split|assumption].
    + right; left. exists (f :: done), f', later, (x :: xs). split; [reflexivity|]. constructor; [now split|assumption].
    + right; right. exists (f :: done), f', later, (p :: g), (x :: xs), q, rest. repeat split; [constructor; [now split|assumption]|assumption]. Qed.
Lemma read_total (fs : list (list byte * (list byte -> option V))) : fs <> [] -> forall ps, exists r, read fs ps r.
Proof. intros N ps. remember (length ps) as n. assert (L : (length ps <= n)%nat) by lia. clear Heqn. revert ps L.
  induction n as [|n IH]; intros ps L.
  - destruct ps; [|simpl in L; lia]. destruct fs as [|f fs]; [congruence|]. exists (All []). apply (read_end _ [] f fs [] []); [reflexivity|constructor].
  - destruct (next_good fs ps) as [(g & xs & rest & -> & G)|[(done & f & later & xs & E & G)|(done & f & later & g & xs & p & rest & E & -> & G & Q)]].
    + destruct (IH rest) as (r & R).
      { apply good_length in G. rewrite app_length in L. destruct fs; [congruence|]. simpl in *. lia. }
      destruct r as [l| |]; eexists; [eapply read_vector|eapply read_later..]; eauto.
    + eexists. eapply read_end; eassumption.
    + destruct Q as [Q|[Q1 Q2]]; eexists; [eapply read_key|eapply read_value]; eassumption. Qed.
End Reader.
