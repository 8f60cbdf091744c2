(** Model of src/testing/test_utils.cpp, src/testing/test_vector_reader.cpp, include/nat20/testing/test_vector_reader.h and the field
    definitions of src/crypto/test/test_vectors.cpp: the hex output, the hex parser and the test vector reader.

    A std::string and a std::vector<uint8_t> are lists of bytes; characters are ASCII codes. A std::ifstream is the list of characters not
    yet read; read errors are not modelled. *)
From Coq Require Import List NArith Bool Strings.Byte.
From Verif Require Import Base Res Crypto.
Import ListNotations.
Open Scope N_scope.

Definition str := list byte.
Definition ch_tab : byte := x09.
Definition ch_nl : byte := x0a.
Definition ch_space : byte := x20.
Definition ch_hash : byte := x23.
Definition ch_colon : byte := x3a.
Definition ch_0 : byte := x30.

(** ** Hex output *)

(** A digit under std::hex, without std::uppercase. *)
Definition hex_digit (n : N) : byte := n2b (if n <? 10 then 48 + n else 87 + n).
(** The digits of an int, at most eight. *)
Fixpoint hex_digits (k : nat) (n : N) : str :=
  match k with
  | O => []
  | S k => if n <? 16 then [hex_digit n] else hex_digits k (n / 16) ++ [hex_digit (n mod 16)]
  end.
(** [s << std::hex << std::setw(w) << std::setfill('0') << n]. *)
Definition put_hex (w : nat) (n : N) : str := let d := hex_digits 8 n in repeat ch_0 (w - length d) ++ d.

(** src/testing/test_utils.cpp:47-54 *)
Fixpoint hex (data : list byte) : str :=
  match data with [] => [] | b :: data => put_hex 2 (b2n b) ++ hex data end.

(** src/testing/test_utils.cpp:35-42: from index [i] on. *)
Fixpoint hexdump_loop (i : N) (data : list byte) : str :=
  match data with
  | [] => []
  | b :: data =>
      (if N.land i 15 =? 0 then [ch_nl] else if N.land i 7 =? 0 then [ch_space; ch_space] else [ch_space]) ++
      put_hex 2 (b2n b) ++ hexdump_loop (i + 1) data
  end.
(** src/testing/test_utils.cpp:25-45 *)
Definition hexdump (data : list byte) : str :=
  match data with
  | [] => []
  | b :: data => put_hex 2 (b2n b) ++ hexdump_loop 1 data
  end.

(** ** Parsers *)

(** The digits std::from_chars takes with base 16; either case. *)
Definition digit_value (c : byte) : option N :=
  let n := b2n c in
  if (48 <=? n) && (n <=? 57) then Some (n - 48)
  else if (97 <=? n) && (n <=? 102) then Some (n - 87)
  else if (65 <=? n) && (n <=? 70) then Some (n - 55)
  else None.
Fixpoint leading_digits (s : str) : list N :=
  match s with
  | [] => []
  | c :: s => match digit_value c with Some v => v :: leading_digits s | None => [] end
  end.
(** std::from_chars for uint8_t with base 16: the longest prefix of digits. [None]: an error code. The end pointer is not used by the caller. *)
Definition from_chars_u8 (s : str) : option N :=
  match leading_digits s with
  | [] => None
  | ds => let v := fold_left (fun a d => 16 * a + d) ds 0 in if v <? 256 then Some v else None
  end.

(** include/nat20/testing/test_vector_reader.h:188-197: the loop over the pairs, [k] of them from index [i]. *)
Fixpoint hex_loop (k : nat) (i : N) (s : str) (bytes : list byte) : option (list byte) :=
  match k with
  | O => Some bytes
  | S k =>
      match from_chars_u8 (takeN 2 (dropN i s)) with
      | None => None
      | Some v => hex_loop k (i + 2) s (bytes ++ [n2b v])
      end
  end.
(** include/nat20/testing/test_vector_reader.h:179-199 hex_string_parser::parse *)
Definition hex_string_parse (s : str) : option (list byte) :=
  if len s =? 0 then Some []
  else if negb (len s mod 2 =? 0) then None
  else hex_loop (N.to_nat (len s / 2)) 0 s [].
(** include/nat20/testing/test_vector_reader.h:152-163 string_parser::parse *)
Definition string_parse (s : str) : option str := Some s.

(** ** Lines *)

(** The position of the first and the last character with the property: find_first_of, find_first_not_of, find, find_last_not_of. *)
Fixpoint find_first (p : byte -> bool) (s : str) : option N :=
  match s with
  | [] => None
  | c :: s => if p c then Some 0 else option_map (N.add 1) (find_first p s)
  end.
Fixpoint find_last (p : byte -> bool) (s : str) : option N :=
  match s with
  | [] => None
  | c :: s => match find_last p s with Some n => Some (1 + n) | None => if p c then Some 0 else None end
  end.
Definition is (c : byte) : byte -> bool := byte_eqb c.
Definition blank (c : byte) : bool := is ch_space c || is ch_tab c.

(** src/testing/test_vector_reader.cpp:23-33 *)
Definition trim (s : str) : str :=
  match find_first (fun c => negb (blank c)) s with
  | None => []
  | Some begin =>
      match find_last (fun c => negb (blank c)) s with
      | None => []
      | Some end_ => takeN (end_ - begin + 1) (dropN begin s)
      end
  end.
(** src/testing/test_vector_reader.cpp:22-45 *)
Definition trim_and_remove_comments (s : str) : option (str * str) :=
  let s := match find_first (is ch_hash) s with Some end_ => takeN end_ s | None => s end in
  match find_first (is ch_colon) s with
  | None => None
  | Some colon_pos => Some (trim (takeN colon_pos s), trim (dropN (colon_pos + 1) s))
  end.
(** std::getline: the line without the newline, and what is left; [None]: the stream is at its end. *)
Definition getline (file : str) : option (str * str) :=
  match file with
  | [] => None
  | _ =>
      match find_first (is ch_nl) file with
      | Some p => Some (takeN p file, dropN (p + 1) file)
      | None => Some (file, [])
      end
  end.
(** src/testing/test_vector_reader.cpp:47-56, with at most [fuel] lines. *)
Fixpoint next_pair_loop (fuel : nat) (file : str) : res (option (str * str) * str) :=
  match fuel with
  | O => OutOfFuel
  | S fuel =>
      match getline file with
      | None => Ret (None, file)
      | Some (line, file) =>
          match trim_and_remove_comments line with
          | Some p => Ret (Some p, file)
          | None => next_pair_loop fuel file
          end
      end
  end.
Definition n20_testing_next_pair (file : str) : res (option (str * str) * str) := next_pair_loop (S (length file)) file.

(** ** The reader *)

(** include/nat20/testing/test_vector_reader.h:117-122 *)
Inductive ErrorCode := None_ | EndOfFile | UnexpectedKey | ParsingError.
Definition is_error (e : ErrorCode) : bool := match e with None_ => false | _ => true end.

Section Reader.
(** The value types of the fields, joined to one. *)
Variable V : Type.
(** include/nat20/testing/test_vector_reader.h:81-98 DEFINE_FIELD: a key and a parser. *)
Record field := mkField { f_key : str; f_parse : str -> option V }.

(** include/nat20/testing/test_vector_reader.h:338-361. A value-initialised result is [None]. *)
Definition next_field (f : field) (errorcode : ErrorCode) (file : str) : res (option V * ErrorCode * str) :=
  if is_error errorcode then Ret (None, errorcode, file) else
  do (found, file) <- n20_testing_next_pair file;
  match found with
  | None => Ret (None, EndOfFile, file)
  | Some (key, value) =>
      if negb (if list_eq_dec byte_eq_dec key (f_key f) then true else false) then Ret (None, UnexpectedKey, file) else
      match f_parse f value with
      | Some v => Ret (Some v, errorcode, file)
      | None => Ret (None, ParsingError, file)
      end
  end.
(** The braced initialiser of the tuple: in order. *)
Fixpoint next_fields (fields : list field) (errorcode : ErrorCode) (file : str) : res (list (option V) * ErrorCode * str) :=
  match fields with
  | [] => Ret ([], errorcode, file)
  | f :: fields =>
      do (v, errorcode, file) <- next_field f errorcode file;
      do (vs, errorcode, file) <- next_fields fields errorcode file;
      Ret (v :: vs, errorcode, file)
  end.
(** include/nat20/testing/test_vector_reader.h:363-375. A result that is a tuple consists of values. *)
Definition next_vector (fields : list field) (file : str) : res ((ErrorCode + list (option V)) * str) :=
  match fields with
  | [] => Ret (inr [], file)
  | _ =>
      do (vs, errorcode, file) <- next_fields fields None_ file;
      Ret (if is_error errorcode then (inl errorcode, file) else (inr vs, file))
  end.
(** The vectors, or the exception. *)
Inductive outcome := Vectors (l : list (list (option V))) | Throws (e : ErrorCode) | CannotOpen.
(** include/nat20/testing/test_vector_reader.h:319-331, with at most [fuel] iterations. *)
Fixpoint read_loop (fuel : nat) (fields : list field) (file : str) (vectors : list (list (option V))) : res outcome :=
  match fuel with
  | O => OutOfFuel
  | S fuel =>
      do (vector, file) <- next_vector fields file;
      match vector with
      | inl EndOfFile => Ret (Vectors vectors)
      | inl e => Ret (Throws e)
      | inr v => read_loop fuel fields file (vectors ++ [v])
      end
  end.
(** include/nat20/testing/test_vector_reader.h:312-333. [file]: its contents, [None] if it cannot be opened. *)
Definition read_all_vectors_from_file (fuel : nat) (fields : list field) (file : option str) : res outcome :=
  match file with
  | None => Ret CannotOpen
  | Some s => read_loop fuel fields s []
  end.
End Reader.
Arguments mkField {V}. Arguments f_key {V}. Arguments f_parse {V}.
Arguments next_field {V}. Arguments next_fields {V}. Arguments next_vector {V}. Arguments read_loop {V}.
Arguments read_all_vectors_from_file {V}. Arguments Vectors {V}. Arguments Throws {V}. Arguments CannotOpen {V}.

(** ** src/crypto/test/test_vectors.cpp *)

(** The value types used there. *)
Inductive value := Text (s : str) | Alg (a : N) | Octets (b : list byte).
Definition key_of (l : list N) : str := bytes l.
(** src/crypto/test/test_vectors.cpp:25-38 *)
Definition algorithm_parse (s : str) : option N :=
  let eq l := if list_eq_dec byte_eq_dec s (bytes l) then true else false in
  if eq [115; 104; 97; 50; 50; 52] then Some sha2_224_e
  else if eq [115; 104; 97; 50; 53; 54] then Some sha2_256_e
  else if eq [115; 104; 97; 51; 56; 52] then Some sha2_384_e
  else if eq [115; 104; 97; 53; 49; 50] then Some sha2_512_e
  else None.
(** src/crypto/test/test_vectors.cpp:40-43, 50-51 *)
Definition Name : field value := mkField (bytes [78; 97; 109; 101]) (fun s => option_map Text (string_parse s)).
Definition Algorithm : field value := mkField (bytes [65; 108; 103]) (fun s => option_map Alg (algorithm_parse s)).
Definition hex_field (key : list N) : field value := mkField (bytes key) (fun s => option_map Octets (hex_string_parse s)).
Definition Message := hex_field [77; 115; 103].
Definition MessageDigest := hex_field [77; 68].
Definition Key := hex_field [75; 101; 121].
Definition Mac := hex_field [77; 97; 99].
(** src/crypto/test/test_vectors.cpp:58-61 *)
Definition Ikm := hex_field [73; 107; 109].
Definition Salt := hex_field [83; 97; 108; 116].
Definition Prk := hex_field [80; 114; 107].
Definition Info := hex_field [73; 110; 102; 111].
(** src/crypto/test/test_vectors.cpp:45, 53, 63 *)
Definition SHA2TestVectorReader : list (field value) := [Name; Algorithm; Message; MessageDigest].
Definition HmacTestVectorReader : list (field value) := [Name; Algorithm; Key; Message; Mac].
Definition HkdfTestVectorReader : list (field value) := [Name; Algorithm; Ikm; Salt; Info; Prk; Key].
