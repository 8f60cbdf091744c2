(** What hex text, a hex dump and a test vector file are, independently of the code that writes and reads them. *)
From Coq Require Import List NArith Bool Strings.Byte Ascii String.
From Verif Require Import Base.
Import ListNotations.
Open Scope N_scope.
Open Scope list_scope.

(** ** Hex *)

(** The characters of a Coq string. *)
Definition text (s : string) : list byte := list_byte_of_string s.
(** The value of a character as a hexadecimal digit: its place in the list of digits. *)
Fixpoint place (c : byte) (l : list byte) (n : N) : option N :=
  match l with [] => None | d :: l => if Byte.eqb d c then Some n else place c l (n + 1) end.
Definition digit (c : byte) : option N :=
  match place c (text "0123456789abcdef") 0 with Some n => Some n | None => place c (text "0123456789ABCDEF") 0 end.
(** [s] is the hex text of [l]: two digits for each byte, the high one first. *)
Inductive hex_text : list byte -> list byte -> Prop :=
| hex_nil : hex_text [] []
| hex_cons : forall c d h k b s l, digit c = Some h -> digit d = Some k -> b2n b = 16 * h + k -> hex_text s l -> hex_text (c :: d :: s) (b :: l).
(** The same, but the second character of a pair may be no digit; the byte then has the value of the first. *)
Inductive loose_hex_text : list byte -> list byte -> Prop :=
| loose_nil : loose_hex_text [] []
| loose_cons : forall c d h k b s l, digit c = Some h -> digit d = Some k -> b2n b = 16 * h + k -> loose_hex_text s l -> loose_hex_text (c :: d :: s) (b :: l)
| loose_bad : forall c d h b s l, digit c = Some h -> digit d = None -> b2n b = h -> loose_hex_text s l -> loose_hex_text (c :: d :: s) (b :: l).
(** Lower case digits only. *)
Definition lower_hex (s : list byte) : Prop := Forall (fun c => In c (text "0123456789abcdef")) s.

(** ** Hex dump *)

Definition newline : byte := x0a.
Definition space : byte := x20.
Fixpoint join (sep : list byte) (l : list (list byte)) : list byte :=
  match l with
  | [] => []
  | [x] => x
  | x :: l => x ++ sep ++ join sep l
  end.
(** One line: groups of at most eight bytes, two spaces between the groups and one between the bytes. *)
Definition dump_line (show : byte -> list byte) (row : list byte) : list byte :=
  match skipn 8 row with
  | [] => join [space] (map show row)
  | second => join [space] (map show (firstn 8 row)) ++ [space; space] ++ join [space] (map show second)
  end.
(** The rows of sixteen bytes; the last may be shorter but not empty. *)
Inductive rows : list byte -> list (list byte) -> Prop :=
| rows_nil : rows [] []
| rows_last : forall r, r <> [] -> (List.length r < 16)%nat -> rows r [r]
| rows_full : forall r l rs, List.length r = 16%nat -> rows l rs -> rows (r ++ l) (r :: rs).

(** ** Test vector files *)

(** The lines of a file; the last one needs no newline. *)
Inductive lines : list byte -> list (list byte) -> Prop :=
| lines_nil : lines [] []
| lines_last : forall l, l <> [] -> ~ In newline l -> lines l [l]
| lines_cons : forall l s ls, ~ In newline l -> lines s ls -> lines (l ++ newline :: s) (l :: ls).

Definition blanks (s : list byte) : Prop := Forall (fun c => c = space \/ c = x09) s.
(** Neither the first nor the last character is blank. *)
Definition tight (s : list byte) : Prop :=
  s = [] \/ (forall c t, s = c :: t -> c <> space /\ c <> x09) /\ (forall c t, s = t ++ [c] -> c <> space /\ c <> x09).
Definition comment (s : list byte) : Prop := s = [] \/ exists t, s = text "#" ++ t.
Definition free_of (cs : list byte) (s : list byte) : Prop := forall c, In c s -> ~ In c cs.
(** [key: value # comment], with blanks anywhere around the key and the value. *)
Definition says (line key value : list byte) : Prop :=
  exists b1 b2 b3 b4 c,
    line = b1 ++ key ++ b2 ++ text ":" ++ b3 ++ value ++ b4 ++ c /\
    blanks b1 /\ blanks b2 /\ blanks b3 /\ blanks b4 /\ comment c /\
    tight key /\ tight value /\ free_of (text ":#") key /\ free_of (text "#") value.
(** A line without a pair: no colon outside of the comment. *)
Definition silent (line : list byte) : Prop := exists t c, line = t ++ c /\ free_of (text ":#") t /\ comment c.
(** The pairs in some lines. *)
Inductive pairs : list (list byte) -> list (list byte * list byte) -> Prop :=
| pairs_nil : pairs [] []
| pairs_says : forall l ls k v ps, says l k v -> pairs ls ps -> pairs (l :: ls) ((k, v) :: ps)
| pairs_silent : forall l ls ps, silent l -> pairs ls ps -> pairs (l :: ls) ps.
Definition file_pairs (file : list byte) (ps : list (list byte * list byte)) : Prop := exists ls, lines file ls /\ pairs ls ps.

Section Vectors.
Context {V : Type}.
(** A field: its key and how its value is read. *)
Notation field := (list byte * (list byte -> option V))%type.
Definition fits (f : field) (p : list byte * list byte) (x : V) : Prop := fst p = fst f /\ snd f (snd p) = Some x.
(** The pairs are the values of the fields in order. *)
Inductive good : list field -> list (list byte * list byte) -> list V -> Prop :=
| good_nil : good [] [] []
| good_cons : forall f fs p ps x xs, fits f p x -> good fs ps xs -> good (f :: fs) (p :: ps) (x :: xs).

Inductive result := All (l : list (list V)) | BadKey | BadValue.
(** What a file with these pairs is, read as vectors of the fields [fs]:
    [All]: the complete vectors; the values of an incomplete last one are dropped. [BadKey], [BadValue]: the first pair that does not fit. *)
Inductive read (fs : list field) : list (list byte * list byte) -> result -> Prop :=
| read_end : forall done f later ps xs, fs = done ++ f :: later -> good done ps xs -> read fs ps (All [])
| read_vector : forall g xs ps l, good fs g xs -> read fs ps (All l) -> read fs (g ++ ps) (All (xs :: l))
| read_key : forall done f later g xs p ps, fs = done ++ f :: later -> good done g xs -> fst p <> fst f -> read fs (g ++ p :: ps) BadKey
| read_value : forall done f later g xs p ps, fs = done ++ f :: later -> good done g xs -> fst p = fst f -> snd f (snd p) = None ->
    read fs (g ++ p :: ps) BadValue
| read_later : forall g xs ps r, good fs g xs -> read fs ps r -> (r = BadKey \/ r = BadValue) -> read fs (g ++ ps) r.
End Vectors.
Arguments result : clear implicits.
