(** Independent specification of how digits are laid out as a text, and of how characters
    are written in a JSON string. *)
From Verif Require Import Machine SpecDecimal SpecString.
Open Scope Z_scope.

(** Only zeros. *)
Definition all_zeros (l : bytes) : Prop := Forall (fun c => c = "0"%char) l.

(** The text [t] writes the number 0.D * 10^n with exactly the digits [D] (and the zeros that
    fixed notation needs): fixed notation with at least one digit on both sides of the point
    for -6 < n <= 21, scientific notation otherwise. *)
Inductive written (D : bytes) (n : Z) : bytes -> Prop :=
| w_integer z : Z.of_nat (length D) <= n <= 21 -> all_zeros z -> Z.of_nat (length (D ++ z)) = n ->
    written D n (D ++ z ++ str ".0")
| w_fraction a b : n <= 21 -> D = a ++ b -> a <> [] -> b <> [] -> Z.of_nat (length a) = n ->
    written D n (a ++ "."%char :: b)
| w_small z : -6 < n <= 0 -> all_zeros z -> Z.of_nat (length z) = - n ->
    written D n (str "0." ++ z ++ D)
| w_one d x : n <= -6 \/ 21 < n -> D = [d] -> canonical_integer x (n - 1) ->
    written D n (d :: "e"%char :: x)
| w_more d r x : n <= -6 \/ 21 < n -> D = d :: r -> r <> [] -> canonical_integer x (n - 1) ->
    written D n (d :: "."%char :: r ++ "e"%char :: x).

(** How a byte is written inside a JSON string (RFC 8259, section 7): the short escapes where
    there is one, \u00 and two lower case hexadecimal digits for the other control
    characters, and everything else as it is; nothing is escaped that need not be. *)
Inductive json_char : ascii -> bytes -> Prop :=
| jc_backspace : json_char (chr 8) [BACKSLASH; "b"%char]
| jc_tab : json_char (chr 9) [BACKSLASH; "t"%char]
| jc_line_feed : json_char (chr 10) [BACKSLASH; "n"%char]
| jc_form_feed : json_char (chr 12) [BACKSLASH; "f"%char]
| jc_return : json_char (chr 13) [BACKSLASH; "r"%char]
| jc_quote : json_char QUOTE [BACKSLASH; QUOTE]
| jc_backslash : json_char BACKSLASH [BACKSLASH; BACKSLASH]
| jc_control c h l : code c <= 31 -> ~ In (code c) [8; 9; 10; 12; 13] ->
    hex_value h = Some (code c / 16) -> hex_value l = Some (code c mod 16) ->
    (code l <= 57 \/ 97 <= code l) ->
    json_char c (BACKSLASH :: str "u00" ++ [h; l])
| jc_other c : 31 < code c -> c <> QUOTE -> c <> BACKSLASH -> json_char c [c].
