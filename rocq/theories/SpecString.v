(** Independent specifications of text encodings: backslash escaping, JSON string literals
    (RFC 8259 section 7) and UTF-8 (Unicode table 3-7). *)
From Verif Require Import Machine.

Definition QUOTE : ascii := chr 34.
Definition BACKSLASH : ascii := chr 92.

(** ** Backslash escaping *)

(** The characters that the loop of string.cpp documents in its comments: NUL to slash,
    colon to at, left bracket to back quote, left brace to tilde. *)
Definition escaped_class (c : ascii) : Prop :=
  0 <= code c <= 47 \/ 58 <= code c <= 64 \/ 91 <= code c <= 96 \/ 123 <= code c <= 126.

(** [t] is [s] with a backslash inserted exactly before the characters of the class [P]. *)
Inductive inserted (P : ascii -> Prop) : bytes -> bytes -> Prop :=
| ins_nil : inserted P [] []
| ins_esc c s t : P c -> inserted P s t -> inserted P (c :: s) (BACKSLASH :: c :: t)
| ins_raw c s t : ~ P c -> inserted P s t -> inserted P (c :: s) (c :: t).

(** Removing the escaping: a backslash stands for the character after it. *)
Fixpoint unescape (t : bytes) : option bytes :=
  match t with
  | [] => Some []
  | c :: r =>
      if ascii_dec c BACKSLASH then
        match r with
        | [] => None
        | d :: r' => option_map (cons d) (unescape r')
        end
      else option_map (cons c) (unescape r)
  end.

(** Letters and digits *)
Definition is_alphanumeric (c : ascii) : Prop :=
  48 <= code c <= 57 \/ 65 <= code c <= 90 \/ 97 <= code c <= 122.
Definition is_ascii (c : ascii) : Prop := code c < 128.

(** ** JSON string literals *)

Definition hex_value (c : ascii) : option Z :=
  let x := code c in
  if (48 <=? x) && (x <=? 57) then Some (x - 48)
  else if (65 <=? x) && (x <=? 70) then Some (x - 55)
  else if (97 <=? x) && (x <=? 102) then Some (x - 87)
  else None.

Definition hex4 (a b c d : ascii) : option Z :=
  match hex_value a, hex_value b, hex_value c, hex_value d with
  | Some a, Some b, Some c, Some d => Some (4096 * a + 256 * b + 16 * c + d)
  | _, _, _, _ => None
  end.

(** UTF-8 encoding of a Unicode scalar value outside the surrogates *)
Definition utf8_encode (u : Z) : bytes :=
  if u <? 128 then [chr u]
  else if u <? 2048 then [chr (192 + u / 64); chr (128 + u mod 64)]
  else if u <? 65536 then
    [chr (224 + u / 4096); chr (128 + u / 64 mod 64); chr (128 + u mod 64)]
  else
    [chr (240 + u / 262144); chr (128 + u / 4096 mod 64); chr (128 + u / 64 mod 64);
     chr (128 + u mod 64)].

(** Two-character escapes of RFC 8259. *)
Definition simple_escape (c : ascii) : option ascii :=
  let x := code c in
  if x =? 34 then Some (chr 34)        (* quotation mark *)
  else if x =? 92 then Some (chr 92)   (* reverse solidus *)
  else if x =? 47 then Some (chr 47)   (* solidus *)
  else if x =? 98 then Some (chr 8)    (* b *)
  else if x =? 102 then Some (chr 12)  (* f *)
  else if x =? 110 then Some (chr 10)  (* n *)
  else if x =? 114 then Some (chr 13)  (* r *)
  else if x =? 116 then Some (chr 9)   (* t *)
  else None.

(** Decoding the characters between the quotation marks, up to and including the closing
    one, which must be the last byte.  [None]: not a JSON string.  Escapes denoting
    surrogates must come in pairs. *)
Fixpoint json_chars (t : bytes) : option bytes :=
  match t with
  | [] => None
  | c :: r =>
      if code c =? 34 then match r with [] => Some [] | _ => None end
      else if code c <? 32 then None
      else if code c =? 92 then
        match r with
        | e :: r1 =>
            if code e =? 117 then
              match r1 with
              | h1 :: h2 :: h3 :: h4 :: r2 =>
                  match hex4 h1 h2 h3 h4 with
                  | Some u =>
                      if (u <? 55296) || (57343 <? u) then
                        option_map (app (utf8_encode u)) (json_chars r2)
                      else if u <? 56320 then
                        match r2 with
                        | b :: v :: l1 :: l2 :: l3 :: l4 :: r3 =>
                            match hex4 l1 l2 l3 l4 with
                            | Some w =>
                                if (code b =? 92) && (code v =? 117) && (56320 <=? w) && (w <=? 57343)
                                then option_map (app (utf8_encode (65536 + 1024 * (u - 55296) + (w - 56320))))
                                                (json_chars r3)
                                else None
                            | None => None
                            end
                        | _ => None
                        end
                      else None
                  | None => None
                  end
              | _ => None
              end
            else
              match simple_escape e with
              | Some d => option_map (cons d) (json_chars r1)
              | None => None
              end
        | [] => None
        end
      else option_map (cons c) (json_chars r)
  end.

Definition json_string_decode (t : bytes) : option bytes :=
  match t with
  | c :: r => if code c =? 34 then json_chars r else None
  | [] => None
  end.

(** ** Well-formed UTF-8, as an automaton: the state is the list of byte ranges still
    required by the current sequence (Unicode, table 3-7). *)
Definition utf8_start (x : Z) : option (list (Z * Z)) :=
  if x <? 128 then Some []
  else if (194 <=? x) && (x <=? 223) then Some [(128, 191)]
  else if x =? 224 then Some [(160, 191); (128, 191)]
  else if (225 <=? x) && (x <=? 236) then Some [(128, 191); (128, 191)]
  else if x =? 237 then Some [(128, 159); (128, 191)]
  else if (238 <=? x) && (x <=? 239) then Some [(128, 191); (128, 191)]
  else if x =? 240 then Some [(144, 191); (128, 191); (128, 191)]
  else if (241 <=? x) && (x <=? 243) then Some [(128, 191); (128, 191); (128, 191)]
  else if x =? 244 then Some [(128, 143); (128, 191); (128, 191)]
  else None.

Fixpoint utf8_run (pending : list (Z * Z)) (s : bytes) : bool :=
  match s with
  | [] => match pending with [] => true | _ => false end
  | c :: r =>
      match pending with
      | [] => match utf8_start (code c) with
              | Some p => utf8_run p r
              | None => false
              end
      | (lo, hi) :: p => (lo <=? code c) && (code c <=? hi) && utf8_run p r
      end
  end.

Definition utf8 (s : bytes) : Prop := utf8_run [] s = true.

(** A JSON text that is a string: UTF-8 encoded (RFC 8259 section 8.1) and a string literal. *)
Definition json_string_text (t : bytes) : Prop :=
  utf8 t /\ exists s, json_string_decode t = Some s.
