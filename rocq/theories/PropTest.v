(** C46, C47, C48: hex text, hex dump, test vector files. *)
From Coq Require Import Strings.String List Arith NArith Bool Lia Strings.Byte.
From Verif Require Import Base BaseFacts Res Crypto TestUtils SpecTest TestProofs.
Import ListNotations.
Open Scope N_scope.
Open Scope list_scope.

(** ** C46 *)

Theorem C46_hex_writes_two_digits_per_byte : forall data, hex_text (hex data) data /\ lower_hex (hex data).
Proof. intros data. split; [apply hex_is_text|apply hex_lower]. Qed.
Print Assumptions C46_hex_writes_two_digits_per_byte.

Theorem C46_hex_round_trip : forall data, hex_string_parse (hex data) = Some data.
Proof. intros data. apply hex_parse_ok, strict_loose, hex_is_text. Qed.
Print Assumptions C46_hex_round_trip.

Theorem C46_hex_injective : forall a b, hex a = hex b -> a = b.
Proof. intros a b H. pose proof (C46_hex_round_trip a) as A. rewrite H, C46_hex_round_trip in A. congruence. Qed.
Print Assumptions C46_hex_injective.

(** Both cases, any mix. *)
Theorem C46_parser_accepts_hex : forall s data, hex_text s data -> hex_string_parse s = Some data.
Proof. intros s data H. apply hex_parse_ok, strict_loose, H. Qed.
Print Assumptions C46_parser_accepts_hex.

(** Exactly what the parser accepts and returns. *)
Theorem C46_parser_exact : forall s data, hex_string_parse s = Some data <-> loose_hex_text s data.
Proof. apply hex_parse_ok. Qed.
Print Assumptions C46_parser_exact.

Theorem C46_odd_length_rejected : forall s, Nat.Odd (length s) -> hex_string_parse s = None.
Proof. intros s (n & H). destruct (hex_string_parse s) as [l|] eqn:E; [|reflexivity]. apply hex_parse_ok, loose_even in E. lia. Qed.
Print Assumptions C46_odd_length_rejected.

(** Not strict: the second character of a pair may be anything. *)
Theorem C46_parser_strict_refuted : ~ forall s data, hex_string_parse s = Some data -> hex_text s data.
Proof. intros H. assert (A := H (text "1g") [x01] eq_refl). inversion A. discriminate. Qed.
Print Assumptions C46_parser_strict_refuted.

Example C46_example :
  hex [x00; x0f; xa5; xff] = text "000fa5ff" /\ hex_string_parse (text "000FA5ff") = Some [x00; x0f; xa5; xff] /\
  hex_string_parse (text "000") = None /\ hex_string_parse (text "0x12") = Some [x00; x12] /\ hex_string_parse (text "g1") = None /\
  hex_string_parse [] = Some [].
Proof. repeat split. Qed.

(** ** C47 *)

Theorem C47_hexdump_lines : forall data, exists rs,
  rows data rs /\ List.concat rs = data /\ hexdump data = join [newline] (map (dump_line (fun b => hex [b])) rs).
Proof. intros data. destruct (rows_exist data) as (rs & H). exists rs. splits; [exact H|now apply rows_concat|now apply hexdump_ok]. Qed.
Print Assumptions C47_hexdump_lines.

(** The other direction: whatever way the data is cut into rows of sixteen, the dump shows these rows. *)
Theorem C47_hexdump_shows_the_rows : forall data rs, rows data rs -> hexdump data = join [newline] (map (dump_line (fun b => hex [b])) rs).
Proof. exact hexdump_ok. Qed.
Print Assumptions C47_hexdump_shows_the_rows.

Definition visible (c : byte) : bool := negb (Byte.eqb c newline) && negb (Byte.eqb c space).
Lemma visible_loop l : forall i, filter visible (hexdump_loop i l) = hex l.
Proof. induction l as [|b l IH]; intros i; [reflexivity|]. rewrite loop_cons. cbn [hex]. rewrite !filter_app, IH.
  assert (S : filter visible (sep (i mod 16)) = []) by (unfold sep; destruct (_ =? 0); [|destruct (_ =? 8)]; reflexivity).
  rewrite S. simpl. f_equal. destruct b; reflexivity. Qed.
(** Without the separators it is the hex text. *)
Theorem C47_hexdump_digits : forall data, filter visible (hexdump data) = hex data.
Proof. intros [|b l]; [reflexivity|]. simpl. rewrite filter_app, visible_loop. f_equal. destruct b; reflexivity. Qed.
Print Assumptions C47_hexdump_digits.

Theorem C47_hexdump_injective : forall a b, hexdump a = hexdump b -> a = b.
Proof. intros a b H. apply C46_hex_injective. now rewrite <- !C47_hexdump_digits, H. Qed.
Print Assumptions C47_hexdump_injective.

Example C47_example :
  hexdump (bytes [0; 1; 2; 3; 4; 5; 6; 7; 8; 9; 10; 11; 12; 13; 14; 15; 16; 255]) =
  text "00 01 02 03 04 05 06 07  08 09 0a 0b 0c 0d 0e 0f" ++ [newline] ++ text "10 ff" /\
  hexdump (bytes [65; 66; 67]) = text "41 42 43" /\ hexdump [] = [].
Proof. repeat split. Qed.
Example C47_rows_example : rows (bytes [1; 2; 3]) [bytes [1; 2; 3]] /\ rows (repeat x00 16 ++ [x01]) [repeat x00 16; [x01]].
Proof. split; [apply rows_last; [discriminate|simpl; lia]|]. apply rows_full; [reflexivity|]. apply rows_last; [discriminate|simpl; lia]. Qed.

(** ** C48 *)

(** What the reader does with every file: [read] says what vectors there are or which pair is the first not to fit. *)
Theorem C48_reader : forall V (fields : list (field V)) file ps r,
  file_pairs file ps -> read (map plain fields) ps r ->
  forall fuel, (length file < fuel)%nat -> read_all_vectors_from_file fuel fields (Some file) = Ret (outcome_of r).
Proof. intros V fields file ps r F R fuel H. unfold read_all_vectors_from_file. rewrite (read_loop_ok _ _ _ R _ fuel []); [|assumption|].
  - now destruct r.
  - destruct F as (ls & L & P). apply lines_length in L. apply pairs_length in P. lia. Qed.
Print Assumptions C48_reader.

(** With at least one field every file has such a reading, and only one; the reader ends. *)
Theorem C48_every_file : forall V (fields : list (field V)) file, fields <> [] ->
  exists ps r, file_pairs file ps /\ read (map plain fields) ps r /\
    (forall ps' r', file_pairs file ps' -> read (map plain fields) ps' r' -> outcome_of r' = outcome_of r) /\
    forall fuel, (length file < fuel)%nat -> read_all_vectors_from_file fuel fields (Some file) = Ret (outcome_of r).
Proof. intros V fields file N. destruct (file_pairs_exist file) as (ps & F).
  destruct (read_total (map plain fields)) with (ps := ps) as (r & R); [destruct fields; [congruence|discriminate]|].
  exists ps, r. splits; [assumption..| |now apply (C48_reader _ _ _ ps)].
  intros ps' r' F' R'. assert (A := C48_reader _ _ _ _ _ F R _ (Nat.lt_succ_diag_r _)).
  rewrite (C48_reader _ _ _ _ _ F' R' _ (Nat.lt_succ_diag_r _)) in A. congruence. Qed.
Print Assumptions C48_every_file.

Lemma read_all_good V (fs : list (list byte * (list byte -> option V))) gs vss : fs <> [] -> Forall2 (good fs) gs vss ->
  forall done f later rest xs, fs = done ++ f :: later -> good done rest xs -> read fs (List.concat gs ++ rest) (All vss).
Proof. intros N H. induction H as [|g vs gs vss G H IH]; intros done f later rest xs E P.
  - simpl. eapply read_end; eassumption.
  - simpl. rewrite <- app_assoc. apply read_vector; [exact G|]. eapply IH; eassumption. Qed.
(** Well-formed files: all the vectors, in order. *)
Theorem C48_all_vectors_in_order : forall V (fields : list (field V)) file gs vss,
  fields <> [] -> file_pairs file (List.concat gs) -> Forall2 (good (map plain fields)) gs vss ->
  forall fuel, (length file < fuel)%nat -> read_all_vectors_from_file fuel fields (Some file) = Ret (Vectors (map (map Some) vss)).
Proof. intros V fields file gs vss N F H fuel L. apply (C48_reader _ _ _ (List.concat gs) (All vss)); [assumption| |assumption].
  destruct fields as [|f fields]; [congruence|]. rewrite <- (app_nil_r (List.concat gs)).
  eapply (read_all_good _ _ gs vss) with (done := []); [discriminate|exact H|reflexivity|constructor]. Qed.
Print Assumptions C48_all_vectors_in_order.

(** A file that ends in the middle of a vector is not reported: the result is that of the complete vectors. *)
Theorem C48_truncated_last_vector_dropped : forall V done f later file gs vss rest xs,
  let fields : list (field V) := done ++ f :: later in
  file_pairs file (List.concat gs ++ rest) -> Forall2 (good (map plain fields)) gs vss -> good (map plain done) rest xs ->
  forall fuel, (length file < fuel)%nat -> read_all_vectors_from_file fuel fields (Some file) = Ret (Vectors (map (map Some) vss)).
Proof. intros V done f later file gs vss rest xs fields F H P fuel L.
  apply (C48_reader _ _ _ (List.concat gs ++ rest) (All vss)); [assumption| |assumption].
  eapply (read_all_good _ _ gs vss); [subst fields; destruct done; discriminate|exact H| |exact P]. unfold fields. now rewrite map_app. Qed.
Print Assumptions C48_truncated_last_vector_dropped.

(** A pair with a wrong key or a value that does not parse: an exception, whatever follows. *)
Theorem C48_misfit_reported : forall V done f later file gs vss rest xs p more,
  let fields : list (field V) := done ++ f :: later in
  file_pairs file (List.concat gs ++ rest ++ p :: more) -> Forall2 (good (map plain fields)) gs vss -> good (map plain done) rest xs ->
  (forall x, ~ fits (plain f) p x) ->
  exists e, (e = UnexpectedKey /\ fst p <> f_key f \/ e = ParsingError /\ fst p = f_key f) /\
    forall fuel, (length file < fuel)%nat -> read_all_vectors_from_file fuel fields (Some file) = Ret (Throws e).
Proof. intros V done f later file gs vss rest xs p more fields F H P M.
  assert (E : map plain fields = map plain done ++ plain f :: map plain later) by (unfold fields; now rewrite map_app).
  assert (R : forall r, read (map plain fields) (rest ++ p :: more) r -> (r = BadKey \/ r = BadValue) ->
              read (map plain fields) (List.concat gs ++ rest ++ p :: more) r).
  { intros r R D. clear F. induction H as [|g vs gs vss G H IH]; [exact R|]. simpl. rewrite <- app_assoc. eapply read_later; eauto. }
  destruct (list_eq_dec Byte.byte_eq_dec (fst p) (f_key f)) as [K|K].
  - exists ParsingError. split; [now right|]. intros fuel L. apply (C48_reader _ _ _ _ BadValue F); [|exact L]. apply R; [|now right].
    eapply read_value; [exact E|exact P|exact K|]. destruct (f_parse f (snd p)) as [x|] eqn:B; [|exact B]. destruct (M x). now split.
  - exists UnexpectedKey. split; [now left|]. intros fuel L. apply (C48_reader _ _ _ _ BadKey F); [|exact L]. apply R; [|now left].
    eapply read_key; [exact E|exact P|exact K]. Qed.
Print Assumptions C48_misfit_reported.

Theorem C48_unopened_file_throws : forall V fuel (fields : list (field V)), read_all_vectors_from_file fuel fields None = Ret CannotOpen.
Proof. reflexivity. Qed.
Print Assumptions C48_unopened_file_throws.

(** Without fields the reader never returns. *)
Theorem C48_no_fields_never_ends : forall V fuel file, read_all_vectors_from_file (V := V) fuel [] (Some file) = OutOfFuel.
Proof. intros V fuel file. simpl. generalize (@nil (list (option V))). induction fuel as [|fuel IH]; intros acc; [reflexivity|]. simpl. apply IH. Qed.
Print Assumptions C48_no_fields_never_ends.

(** ** Files written from vectors *)

(** One pair on a line. *)
Definition pair_line (p : list byte * list byte) : list byte := fst p ++ text ": " ++ snd p ++ [newline].
Definition plain_text (s : list byte) : Prop := tight s /\ free_of (newline :: text "#") s.
Definition plain_pair (p : list byte * list byte) : Prop := plain_text (fst p) /\ free_of (text ":") (fst p) /\ plain_text (snd p).
Lemma written_pairs ps : Forall plain_pair ps -> file_pairs (List.concat (map pair_line ps)) ps.
Proof. induction 1 as [|[k v] ps ((Tk & Fk) & Ck & Tv & Fv) H (ls & L & P)]; simpl in *; [exists []; split; constructor|].
  exists ((k ++ text ": " ++ v) :: ls). split.
  - change (pair_line (k, v)) with (k ++ text ": " ++ v ++ [newline]).
    replace ((k ++ text ": " ++ v ++ [newline]) ++ List.concat (map pair_line ps)) with ((k ++ text ": " ++ v) ++ newline :: List.concat (map pair_line ps)) by now rewrite <- !app_assoc.
    apply lines_cons; [|exact L]. rewrite !in_app_iff. intros [I|[I|I]].
    + apply (Fk _ I). now left.
    + simpl in I. intuition discriminate.
    + apply (Fv _ I). now left.
  - apply pairs_says; [|exact P]. exists [], [], [space], [], []. splits; try assumption; try (constructor; fail).
    + simpl. now rewrite app_nil_r.
    + constructor; [now left|constructor].
    + now left.
    + intros c I [<-|[<-|[]]]; [now apply (Ck _ I); left|]. apply (Fk _ I). simpl. tauto.
    + intros c I J. apply (Fv _ I). now right. Qed.

(** The three kinds of test vector files of the crypto tests: the keys in order, each with the kind of its value. *)
Inductive kind := AText | AnAlgorithm | SomeOctets.
Definition sha2_format : list (list byte * kind) :=
  [(text "Name", AText); (text "Alg", AnAlgorithm); (text "Msg", SomeOctets); (text "MD", SomeOctets)].
Definition hmac_format : list (list byte * kind) :=
  [(text "Name", AText); (text "Alg", AnAlgorithm); (text "Key", SomeOctets); (text "Msg", SomeOctets); (text "Mac", SomeOctets)].
Definition hkdf_format : list (list byte * kind) :=
  [(text "Name", AText); (text "Alg", AnAlgorithm); (text "Ikm", SomeOctets); (text "Salt", SomeOctets); (text "Info", SomeOctets);
   (text "Prk", SomeOctets); (text "Key", SomeOctets)].
(** How a value is written. *)
Definition alg_name (a : N) : list byte :=
  if a =? sha2_224_e then text "sha224" else if a =? sha2_256_e then text "sha256" else if a =? sha2_384_e then text "sha384" else text "sha512".
Definition shown (v : value) : list byte := match v with Text s => s | Alg a => alg_name a | Octets b => hex b end.
Definition value_ok (k : kind) (v : value) : Prop :=
  match k, v with
  | AText, Text s => plain_text s
  | AnAlgorithm, Alg a => In a [sha2_224_e; sha2_256_e; sha2_384_e; sha2_512_e]
  | SomeOctets, Octets _ => True
  | _, _ => False
  end.
Definition vector_ok (format : list (list byte * kind)) (v : list value) : Prop := Forall2 (fun f x => value_ok (snd f) x) format v.
Definition vector_pairs (format : list (list byte * kind)) (v : list value) : list (list byte * list byte) := combine (map fst format) (map shown v).
Definition vectors_file (format : list (list byte * kind)) (vs : list (list value)) : list byte :=
  List.concat (map pair_line (List.concat (map (vector_pairs format) vs))).

Ltac literal_tight := right; split; intros c t E;
     [injection E as <- _; split; discriminate
     |apply (f_equal (@rev byte)) in E; rewrite rev_app_distr in E; simpl in E; injection E as <- _; split; discriminate].
Ltac literal_free := let c := fresh in let I := fresh in let J := fresh in
  intros c I J; simpl in I, J; repeat (destruct I as [I|I]; [subst c; repeat (destruct J as [J|J]; [discriminate J|]); exact J|]); exact I.
Lemma lower_plain s : lower_hex s -> plain_text s.
Proof. intros H. unfold lower_hex in H. rewrite Forall_forall in H.
  assert (X : forall c, In c s -> c <> space /\ c <> x09 /\ ~ In c (newline :: text "#")).
  { intros c I. apply H in I. simpl in I. intuition (subst; try discriminate; try (match goal with H : In _ _ |- _ => simpl in H; intuition discriminate end)). }
  split.
  - right. split; intros c t E; destruct (X c) as (A & B & _); auto; subst s; [now left|apply in_or_app; right; now left].
  - intros c I. apply (X c I). Qed.
Lemma alg_plain a : plain_text (alg_name a).
Proof. unfold alg_name, plain_text. destruct (a =? sha2_224_e); [|destruct (a =? sha2_256_e); [|destruct (a =? sha2_384_e)]]; (split; [literal_tight|literal_free]). Qed.
Definition format_field (f : list byte * kind) : field value :=
  mkField (fst f) (fun s => match snd f with
    | AText => option_map Text (string_parse s) | AnAlgorithm => option_map Alg (algorithm_parse s) | SomeOctets => option_map Octets (hex_string_parse s) end).
Lemma format_round_trip format : format <> [] -> Forall (fun f => plain_text (fst f) /\ free_of (text ":") (fst f)) format ->
  forall fields, map f_key fields = map fst format -> (forall s, map (fun f => f_parse f s) fields = map (fun f => f_parse (format_field f) s) format) ->
  forall vs, Forall (vector_ok format) vs ->
  forall fuel, (length (vectors_file format vs) < fuel)%nat ->
  read_all_vectors_from_file fuel fields (Some (vectors_file format vs)) = Ret (Vectors (map (map Some) vs)).
Proof. intros N P fields K Q vs H fuel L.
  apply (C48_all_vectors_in_order _ _ _ (map (vector_pairs format) vs) vs); [destruct fields, format; simpl in *; congruence| | |exact L].
  - apply written_pairs. clear - P H. induction H as [|v vs Hv H IH]; [constructor|]. simpl. apply Forall_app. split; [|exact IH].
    unfold vector_pairs. clear - P Hv. induction Hv as [|f x fs xs Hx Hv IH]; [constructor|]. inversion P as [|? ? (Pk & Pc) P']; subst. simpl.
    constructor; [|now apply IH]. split; [exact Pk|split; [exact Pc|]]. simpl. destruct f as [k []], x; simpl in *; try contradiction.
    + exact Hx.
    + apply alg_plain.
    + apply lower_plain, hex_lower.
  - clear - K Q H. induction H as [|v vs Hv H IH]; [constructor|]. simpl. constructor; [|exact IH]. clear - K Q Hv.
    unfold vector_pairs. revert fields K Q. induction Hv as [|f x fs xs Hx Hv IH]; intros [|g fields] K Q; try discriminate; [constructor|].
    simpl in K. injection K as K1 K2. assert (Q1 : forall s, f_parse g s = f_parse (format_field f) s) by (intros s; specialize (Q s); cbn [map] in Q; injection Q as Qa Qb; assumption).
    assert (Q2 : forall s, map (fun f => f_parse f s) fields = map (fun f => f_parse (format_field f) s) fs) by (intros s; specialize (Q s); cbn [map] in Q; injection Q as Qa Qb; assumption).
    simpl. constructor; [|now apply IH]. split; simpl; [congruence|]. rewrite Q1. destruct f as [k []], x; simpl in *; try contradiction.
    + reflexivity.
    + destruct Hx as [<-|[<-|[<-|[<-|[]]]]]; reflexivity.
    + now rewrite C46_hex_round_trip. Qed.
(** A file written from any vectors of the three formats is read back as these vectors. *)
Theorem C48_file_round_trip : forall fields format,
  In (fields, format) [(SHA2TestVectorReader, sha2_format); (HmacTestVectorReader, hmac_format); (HkdfTestVectorReader, hkdf_format)] ->
  forall vs, Forall (vector_ok format) vs ->
  forall fuel, (length (vectors_file format vs) < fuel)%nat ->
  read_all_vectors_from_file fuel fields (Some (vectors_file format vs)) = Ret (Vectors (map (map Some) vs)).
Proof. intros fields format I. apply format_round_trip.
  - destruct I as [E|[E|[E|[]]]]; injection E as <- <-; discriminate.
  - destruct I as [E|[E|[E|[]]]]; injection E as <- <-;
      (repeat apply Forall_cons; try apply Forall_nil; (split; [split; [literal_tight|literal_free]|literal_free])).
  - destruct I as [E|[E|[E|[]]]]; injection E as <- <-; reflexivity.
  - destruct I as [E|[E|[E|[]]]]; injection E as <- <-; reflexivity. Qed.
Print Assumptions C48_file_round_trip.

Example C48_example :
  let file := text "# vectors" ++ [newline; newline] ++ text " Name : one # first" ++ [newline] ++ text "Alg: sha256" ++ [newline] ++
              text "Msg:" ++ [newline] ++ text "MD:e3b0" ++ [newline] ++ text "no pair" ++ [newline] ++ text "Name: two" in
  read_all_vectors_from_file 100 SHA2TestVectorReader (Some file) =
    Ret (Vectors [[Some (Text (text "one")); Some (Alg sha2_256_e); Some (Octets []); Some (Octets [xe3; xb0])]]) /\
  read_all_vectors_from_file 200 SHA2TestVectorReader (Some (file ++ [newline] ++ text "Alg: md5")) = Ret (Throws ParsingError) /\
  read_all_vectors_from_file 200 SHA2TestVectorReader (Some (file ++ [newline] ++ text "MD: 00")) = Ret (Throws UnexpectedKey).
Proof. vm_compute. repeat split. Qed.
(** The hypotheses of the theorems: such a file and its reading. *)
Example C48_example_reading :
  let fields := [Name; Message] in
  let file := text "Name: a" ++ [newline] ++ text "Msg: 01#x" in
  file_pairs file [(text "Name", text "a"); (text "Msg", text "01")] /\
  read (map plain fields) [(text "Name", text "a"); (text "Msg", text "01")] (All [[Text (text "a"); Octets [x01]]]) /\
  read_all_vectors_from_file 18 fields (Some file) = Ret (Vectors [[Some (Text (text "a")); Some (Octets [x01])]]).
Proof. simpl. splits.
  - exists [text "Name: a"; text "Msg: 01#x"]. split.
    + apply (lines_cons (text "Name: a")); [simpl; intuition discriminate|]. apply lines_last; [discriminate|simpl; intuition discriminate].
    + apply pairs_says; [|apply pairs_says; [|constructor]].
      * exists [], [], [space], [], []. splits; try (now constructor); try reflexivity; try (constructor; [now left|constructor]); try (now left);
          try (intros c I J; simpl in I, J; intuition (subst; discriminate));
          right; split; intros c t E; [injection E as <- _; split; discriminate|apply (f_equal (@rev byte)) in E; rewrite rev_app_distr in E; simpl in E; injection E as <- _; split; discriminate|
            injection E as <- _; split; discriminate|apply (f_equal (@rev byte)) in E; rewrite rev_app_distr in E; simpl in E; injection E as <- _; split; discriminate].
      * exists [], [], [space], [], (text "#x"). splits; try (now constructor); try reflexivity; try (constructor; [now left|constructor]); try (now right; exists (text "x"));
          try (intros c I J; simpl in I, J; intuition (subst; discriminate));
          right; split; intros c t E; [injection E as <- _; split; discriminate|apply (f_equal (@rev byte)) in E; rewrite rev_app_distr in E; simpl in E; injection E as <- _; split; discriminate|
            injection E as <- _; split; discriminate|apply (f_equal (@rev byte)) in E; rewrite rev_app_distr in E; simpl in E; injection E as <- _; split; discriminate].
  - apply (read_vector _ [(text "Name", text "a"); (text "Msg", text "01")] _ []).
    + repeat constructor.
    + eapply (read_end _ []); [reflexivity|constructor].
  - reflexivity. Qed.
Example C48_example_vectors :
  Forall (vector_ok hmac_format) [[Text (text "empty"); Alg sha2_224_e; Octets [xd1; x4a]; Octets []; Octets [x00]]; [Text (text "b"); Alg sha2_512_e; Octets []; Octets [xff]; Octets []]] /\
  vectors_file sha2_format [[Text (text "b"); Alg sha2_512_e; Octets [xff]; Octets []]] =
    text "Name: b" ++ [newline] ++ text "Alg: sha512" ++ [newline] ++ text "Msg: ff" ++ [newline] ++ text "MD: " ++ [newline].
Proof. split; [|reflexivity]. apply Forall_cons; [|apply Forall_cons; [|apply Forall_nil]];
  (repeat apply Forall2_cons; [split; [literal_tight|literal_free]|simpl; tauto|exact I..|apply Forall2_nil]). Qed.
(** A file whose last vector is cut off, and one with a pair that does not fit. *)
Example C48_truncated_case :
  let vector := [(text "Name", text "a"); (text "Msg", text "01")] in let rest := [(text "Name", text "b")] in
  let file := List.concat (map pair_line (vector ++ rest)) in
  file_pairs file (List.concat [vector] ++ rest) /\ good (map plain [Name; Message]) vector [Text (text "a"); Octets [x01]] /\ good (map plain [Name]) rest [Text (text "b")] /\
  read_all_vectors_from_file 30 [Name; Message] (Some file) = Ret (Vectors [[Some (Text (text "a")); Some (Octets [x01])]]).
Proof. cbv zeta. splits; [|repeat constructor|repeat constructor|reflexivity].
  apply written_pairs. repeat apply Forall_cons; [..|apply Forall_nil]; (split; [split; [literal_tight|literal_free]|]; split; [literal_free|]; split; [literal_tight|literal_free]).
Qed.
Example C48_misfit_case :
  let ps := [(text "Name", text "b"); (text "Msg", text "012")] in let file := List.concat (map pair_line ps) in
  file_pairs file (List.concat [] ++ [(text "Name", text "b")] ++ (text "Msg", text "012") :: []) /\ good (map plain [Name]) [(text "Name", text "b")] [Text (text "b")] /\
  (forall x, ~ fits (plain Message) (text "Msg", text "012") x) /\
  read_all_vectors_from_file 30 [Name; Message] (Some file) = Ret (Throws ParsingError).
Proof. cbv zeta. splits; [|repeat constructor| |reflexivity].
  - apply written_pairs. repeat apply Forall_cons; [..|apply Forall_nil]; (split; [split; [literal_tight|literal_free]|]; split; [literal_free|]; split; [literal_tight|literal_free]).
  - intros x [_ H]. discriminate H.
Qed.
