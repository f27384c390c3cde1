(** Vocabulary of the properties of the public functions: what an object shows, which
    values an argument type has, what is assumed of an environment. *)
From Coq Require Import Reals.
From Verif Require Import Machine SpecInt SpecIeee ModelItoa ModelInt ModelText ModelIeee ModelDiyfp ModelDtoa ModelFloat ModelLexi.
Open Scope Z_scope.

(** A formatter shows the text [s]: string(), the conversion to std::string, size(),
    length(), data() and c_str() agree; its array of [n] bytes holds the text and a NUL. *)
Definition shows (f : formatter) (n : nat) (s : bytes) : Prop :=
  f_string f = Ok s /\ f_to_string f = Ok s /\ f_size f = Z.of_nat (length s) /\
  f_length f = Z.of_nat (length s) /\ length (f_buffer f) = n /\ (length s < n)%nat /\
  buf_read (f_buffer f) (f_size f) = Ok NUL /\
  (Forall (fun c => c <> NUL) s -> f_c_str f = Ok s).

(** The configured floating point literals fit the buffer, and contain no NUL. *)
Definition float_literals_ok (lit : literals) : Prop :=
  (length (lit_nan lit) < FLOAT_SIZE)%nat /\ (length (lit_infinity lit) < FLOAT_SIZE)%nat /\
  (length (lit_negative_infinity lit) < FLOAT_SIZE)%nat.
Definition literals_not_nul (lit : literals) : Prop :=
  Forall (fun c => c <> NUL) (lit_nan lit) /\ Forall (fun c => c <> NUL) (lit_infinity lit) /\
  Forall (fun c => c <> NUL) (lit_negative_infinity lit).

(** The pattern of a NaN after conversions is some NaN pattern. *)
Definition nan_ok (env : float_env) : Prop := bits64 (fe_nan env) /\ double_nan (fe_nan env).

(** A floating point argument is a value of its type. *)
Definition floating_ok (e : env) (v : value) : Prop :=
  match v with
  | VFloat u => bits32 u
  | VDouble u => bits64 u
  | VLongDouble x => valid_binary (ld_prec (fe_ld (e_float e))) (ld_emax (fe_ld (e_float e))) x = true
  | _ => False
  end.

(** Reading past the table POWER10 (dtoa.cpp:267) when that is undefined behaviour, and the
    same environment in which the read gives some word. *)
Definition overrun {A} : outcome A := UB "POWER10 read out of bounds".
Definition with_policy (e : env) (pol : policy) : env :=
  let f := e_float e in let tc := fe_tc f in
  Env (e_platform e)
      (FloatEnv (fe_ld f) (fe_nan f)
         (Toolchain (tc_mul tc) (tc_norm tc) (tc_norm_boundary tc) (tc_eval tc) (tc_char_signed tc) pol) (fe_lit f)).
Definition lenient (tc : toolchain) : Prop := exists oracle, tc_policy tc = Lenient oracle.

(** An argument is a value of its type; strings have no formatter. *)
Definition value_ok (e : env) (v : value) : Prop :=
  match v with
  | VNull | VBool _ | VChar _ => True
  | VInt t n => has_int_type (e_platform e) t n
  | VEnum u n => underlying_has (e_platform e) u n
  | VFpos off => - 2 ^ 63 <= off < 2 ^ 63
  | VFloat _ | VDouble _ | VLongDouble _ => floating_ok e v
  | VString _ | VCString _ => False
  end.

(** The declared array sizes: null.hpp:24, bool.hpp:24, char.hpp:24, fmt.hpp:23-24. *)
Definition array_size (v : value) : nat :=
  match v with
  | VNull => 5 | VBool _ => 6 | VChar _ => 2
  | VInt _ _ | VEnum _ _ | VFpos _ => 22
  | _ => 30
  end.
