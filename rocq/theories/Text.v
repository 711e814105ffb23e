(** * Text, streams and numbers: the parts of std / abseil / OpenGeode-basic that
    the readers and writers call.

    None of these functions is in /repo; they are modelled from the documented
    behaviour of the libraries (see DESIGN.md, trusted base):
    - [geode::string_split], [string_starts_with], [string_to_index],
      [string_to_double], [check_keyword], [goto_keyword],
      [goto_keyword_if_it_exists], [goto_keywords], [next_keyword_if_it_exists]
      (OpenGeode, geode/basic/string.hpp and geode/basic/file.hpp);
    - [absl::StripAsciiWhitespace], [StrSplit], [StrJoin], [StrReplaceAll],
      [StrContains], [SimpleAtoi] (abseil);
    - [std::getline] on a [std::ifstream]. *)
From Coq Require Import ZArith List Lia Bool Ascii String.
From Verif Require Import Base.
Import ListNotations.
Local Open Scope Z_scope.

Definition bytes := list ascii.
Definition lit (s : string) : bytes := list_ascii_of_string s.
Coercion lit : string >-> bytes.

Definition chr (n : nat) : ascii := ascii_of_nat n.
Definition SP : ascii := " "%char.
Definition TAB : ascii := ascii_of_nat 9.
Definition LF : ascii := ascii_of_nat 10.
Definition CR : ascii := ascii_of_nat 13.
Definition QUOTE : ascii := ascii_of_nat 34.

Fixpoint beq (a b : bytes) : bool :=
  match a, b with
  | [], [] => true
  | x :: s, y :: t => Ascii.eqb x y && beq s t
  | _, _ => false
  end.

(** C locale [isspace], used by [absl::StripAsciiWhitespace]. *)
Definition isspace (c : ascii) : bool :=
  let n := nat_of_ascii c in Nat.eqb n 32 || (Nat.leb 9 n && Nat.leb n 13).
(** Separators of [geode::string_split]. *)
Definition is_sep (c : ascii) : bool := Ascii.eqb c SP || Ascii.eqb c TAB.

Fixpoint drop_while (p : ascii -> bool) (l : bytes) : bytes :=
  match l with
  | [] => []
  | c :: t => if p c then drop_while p t else l
  end.
(** [absl::StripAsciiWhitespace]. *)
Definition strip (l : bytes) : bytes :=
  drop_while isspace (rev (drop_while isspace (rev l))).

(** Maximal runs of non-separator characters: [absl::StrSplit(..., SkipEmpty())]. *)
Definition flush (cur : bytes) : list bytes :=
  match cur with [] => [] | _ => [cur] end.
Fixpoint split_run (cur l : bytes) : list bytes :=
  match l with
  | [] => flush cur
  | c :: t => if is_sep c then flush cur ++ split_run [] t else split_run (cur ++ [c]) t
  end.
Definition words (l : bytes) : list bytes := split_run [] l.
(** [geode::string_split]. *)
Definition string_split (l : bytes) : list bytes := words (strip l).

(** [absl::StrJoin( tokens, " " )]. *)
Fixpoint join (ts : list bytes) : bytes :=
  match ts with
  | [] => []
  | [t] => t
  | t :: r => t ++ SP :: join r
  end.

(** [geode::string_starts_with( line, prefix )]. *)
Fixpoint starts_with (l p : bytes) : bool :=
  match p, l with
  | [], _ => true
  | x :: p', y :: l' => Ascii.eqb x y && starts_with l' p'
  | _ :: _, [] => false
  end.
(** Suffix that follows the first occurrence of [p] ([std::string::find] then
    [remove_prefix]). *)
Fixpoint after_first (p l : bytes) : option bytes :=
  if starts_with l p then Some (skipn (List.length p) l)
  else match l with [] => None | _ :: t => after_first p t end.
(** [absl::StrContains]. *)
Definition contains (l p : bytes) : bool :=
  match after_first p l with Some _ => true | None => false end.
(** [absl::StrReplaceAll] of the quote character by nothing. *)
Definition remove_quotes (l : bytes) : bytes :=
  filter (fun c => negb (Ascii.eqb c QUOTE)) l.

(** ** Decimal integers *)
Definition digit_of (z : Z) : ascii := ascii_of_nat (Z.to_nat (48 + z)).
Definition is_digit (c : ascii) : bool :=
  let n := nat_of_ascii c in Nat.leb 48 n && Nat.leb n 57.
Definition digit_val (c : ascii) : Z := Z.of_nat (nat_of_ascii c) - 48.

Fixpoint show_fuel (fuel : nat) (z : Z) : bytes :=
  match fuel with
  | O => []
  | S f => if z <? 10 then [digit_of z] else show_fuel f (z / 10) ++ [digit_of (z mod 10)]
  end.
(** [operator<<( std::ostream&, unsigned )] for a non-negative value. *)
Definition show (z : Z) : bytes := show_fuel (S (Z.to_nat (Z.log2 z))) z.

Fixpoint digits_val (acc : Z) (l : bytes) : option Z :=
  match l with
  | [] => Some acc
  | c :: t => if is_digit c then digits_val (acc * 10 + digit_val c) t else None
  end.
(** Non-empty digit string. *)
Definition parse_digits (l : bytes) : option Z :=
  match l with [] => None | _ => digits_val 0 l end.

(** [absl::SimpleAtoi] to a 32-bit unsigned: surrounding white space is
    skipped, a leading '+' accepted, a leading '-' or an overflow rejected. *)
Definition parse_index (l : bytes) : option Z :=
  let s := strip l in
  let d := match s with c :: t => if Ascii.eqb c "+"%char then t else s | [] => s end in
  match parse_digits d with
  | Some v => if v <? two32 then Some v else None
  | None => None
  end.
(** [absl::SimpleAtoi] to a 32-bit signed. *)
Definition parse_int (l : bytes) : option Z :=
  let s := strip l in
  let r := match s with
           | c :: t => if Ascii.eqb c "+"%char then parse_digits t
                       else if Ascii.eqb c "-"%char then option_map Z.opp (parse_digits t)
                       else parse_digits s
           | [] => None
           end in
  match r with
  | Some v => if (-2147483648 <=? v) && (v <? 2147483648) then Some v else None
  | None => None
  end.

(** [geode::string_to_index]: throws when the text is not an index. *)
Definition string_to_index (l : bytes) : res Z :=
  match parse_index l with Some v => Ok v | None => Throw ExData end.
Definition string_to_int (l : bytes) : res Z :=
  match parse_int l with Some v => Ok v | None => Throw ExData end.

(** ** Floating-point numbers

    The model never computes with the bits of a double: the operations the
    readers and writers apply to coordinates are collected in this record and
    theorems quantify over it.  [atod] is [absl::SimpleAtod]
    (through [geode::string_to_double]); [pt_text] is the text of one
    coordinate in [Point3D::string()]; [os_text] is [operator<<] of a
    double/float on a default stream; [neg] is [x * -1.]; [plus] is [+];
    [ndv] is the constant [-99999.]. *)
Record Num := mkNum {
  num : Type;
  atod : bytes -> option num;
  pt_text : num -> bytes;
  os_text : num -> bytes;
  neg : num -> num;
  plus : num -> num -> num;
  ndv : num;
  zero : num
}.

Definition string_to_double (F : Num) (l : bytes) : res (num F) :=
  match atod F l with Some v => Ok v | None => Throw ExData end.

(** ** Input streams

    [pending] are the lines not yet read; [nl] tells whether the text ends with
    an end of line, i.e. whether [eofbit] is still clear once all the lines have
    been read. *)
Record istream := mkStream { pending : list bytes; nl : bool }.

(** [std::getline( file, line )] with [prev] the previous content of [line]:
    returns the success flag, the new content of [line] and the stream.  When
    the stream is exhausted the string is erased only if [eofbit] was clear. *)
Definition getline (prev : bytes) (s : istream) : bool * bytes * istream :=
  match pending s with
  | l :: r => (true, l, mkStream r (nl s))
  | [] => (false, (if nl s then [] else prev), mkStream [] false)
  end.

(** Cutting a text in lines. *)
Fixpoint cut (cur t : bytes) : list bytes * bool :=
  match t with
  | [] => match cur with [] => ([], true) | _ => ([cur], false) end
  | c :: r => if Ascii.eqb c LF
              then let '(ls, b) := cut [] r in (cur :: ls, b)
              else cut (cur ++ [c]) r
  end.
Definition open_text (t : bytes) : istream :=
  let '(ls, b) := cut [] t in mkStream ls b.

(** Text made of complete lines ([file << ... << EOL]). *)
Fixpoint unlines (ls : list bytes) : bytes :=
  match ls with
  | [] => []
  | l :: r => l ++ LF :: unlines r
  end.

(** [geode::goto_keyword_if_it_exists]: first line starting with the keyword;
    when there is none the stream is put back where it was. *)
Fixpoint scan (p : bytes -> bool) (ls : list bytes) : option (bytes * list bytes) :=
  match ls with
  | [] => None
  | l :: r => if p l then Some (l, r) else scan p r
  end.
Definition goto_if (kw : bytes) (s : istream) : option bytes * istream :=
  match scan (fun l => starts_with l kw) (pending s) with
  | Some (l, r) => (Some l, mkStream r (nl s))
  | None => (None, s)
  end.
(** [geode::goto_keyword]: throws when the keyword is not found. *)
Definition goto_keyword (kw : bytes) (s : istream) : res (bytes * istream) :=
  match goto_if kw s with
  | (Some l, s') => Ok (l, s')
  | (None, _) => Throw ExData
  end.
(** [geode::goto_keywords]. *)
Definition goto_keywords (kws : list bytes) (s : istream) : res (bytes * istream) :=
  match scan (fun l => existsb (starts_with l) kws) (pending s) with
  | Some (l, r) => Ok (l, mkStream r (nl s))
  | None => Throw ExData
  end.
(** [geode::next_keyword_if_it_exists]: looks at the next line only. *)
Definition next_if (kw : bytes) (s : istream) : option bytes * istream :=
  match pending s with
  | l :: r => if starts_with l kw then (Some l, mkStream r (nl s)) else (None, s)
  | [] => (None, mkStream [] false)
  end.
(** [geode::check_keyword]. *)
Definition check_keyword (kw : bytes) (s : istream) : res istream :=
  match pending s with
  | l :: r => if starts_with l kw then Ok (mkStream r (nl s)) else Throw ExData
  | [] => Throw ExData
  end.

(** A token: non-empty, no white space. *)
Definition no_space (l : bytes) : Prop := Forall (fun c => isspace c = false) l.
Definition token (l : bytes) : Prop := l <> [] /\ no_space l.
