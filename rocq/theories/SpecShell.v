(** Two readers of backslashes: the POSIX shell (Shell Command Language 2.2.1, 2.3, 2.6) reading the arguments of
    a simple command, and Perl-compatible regular expressions. *)
From Verif Require Import Machine SpecString.

Definition LF : ascii := chr 10.
(** Blanks of the POSIX locale separate words. *)
Definition is_blank (c : ascii) : bool := (code c =? 32) || (code c =? 9).
(** Characters that are or may be special outside of quotes (2.2), the braces, the exclamation mark and the comma and the
    hyphen and the circumflex of extensions of shells, and line feeds and NULs: operators, quoting, expansions, patterns,
    comments, assignments, the end of the command. *)
Definition shell_special : bytes := str "|&;<>()$`'*?[]#~=%{}!,^-" ++ [chr 34; chr 10; chr 0].
Definition is_special (c : ascii) : bool := if in_dec ascii_dec c shell_special then true else false.

(** The arguments; [word] is the one being read, if any.  [None]: the line is not only words that stand for themselves.
    A backslash and a line feed are removed before the line is split; a backslash keeps any other character. *)
Fixpoint shell_words (word : option bytes) (line : bytes) : option (list bytes) :=
  match line with
  | [] => Some match word with Some w => [w] | None => [] end
  | c :: r =>
      if ascii_dec c BACKSLASH then
        match r with
        | [] => None
        | d :: r' =>
            if ascii_dec d LF then shell_words word r'
            else if ascii_dec d NUL then None
            else shell_words (Some (match word with Some w => w | None => [] end ++ [d])) r'
        end
      else if is_blank c then
        match word with
        | Some w => option_map (cons w) (shell_words None r)
        | None => shell_words None r
        end
      else if is_special c then None
      else shell_words (Some (match word with Some w => w | None => [] end ++ [c])) r
  end.
Definition shell_arguments (line : bytes) : option (list bytes) := shell_words None line.

(** Texts with a space between them. *)
Fixpoint with_spaces (l : list bytes) : bytes :=
  match l with
  | [] => []
  | [t] => t
  | t :: l => t ++ [chr 32] ++ with_spaces l
  end.

(** [t] is [s] without its line feeds. *)
Inductive without_lines : bytes -> bytes -> Prop :=
| without_nil : without_lines [] []
| without_line s t : without_lines s t -> without_lines (LF :: s) t
| without_other c s t : c <> LF -> without_lines s t -> without_lines (c :: s) (c :: t).
(** [m] are the texts of [l] without their line feeds, and without those that are empty then. *)
Inductive arguments_of : list bytes -> list bytes -> Prop :=
| arguments_nil : arguments_of [] []
| arguments_empty s l m : without_lines s [] -> arguments_of l m -> arguments_of (s :: l) m
| arguments_word s t l m : without_lines s t -> t <> [] -> arguments_of l m -> arguments_of (s :: l) (t :: m).

(** A regular expression that is a sequence of characters that stand for themselves, and these: a backslash keeps what is
    neither letter nor digit; the metacharacters outside of classes, and white space and the number sign for the extended
    syntax, are not allowed. *)
Definition regex_special : bytes := str "^$.[]|()?*+{}# " ++ [chr 9; chr 10; chr 11; chr 12; chr 13].
Definition letter_or_digit (c : ascii) : bool :=
  let x := code c in ((48 <=? x) && (x <=? 57)) || ((65 <=? x) && (x <=? 90)) || ((97 <=? x) && (x <=? 122)).
Fixpoint regex_literal (t : bytes) : option bytes :=
  match t with
  | [] => Some []
  | c :: r =>
      if ascii_dec c BACKSLASH then
        match r with
        | [] => None
        | d :: r' => if letter_or_digit d then None else option_map (cons d) (regex_literal r')
        end
      else if in_dec ascii_dec c regex_special then None
      else option_map (cons c) (regex_literal r)
  end.
