(** Property C95: character pointers and arrays are read up to the first NUL. *)
From Verif Require Import Machine SpecApi ModelItoa ModelInt ModelText ModelDiyfp ModelDtoa ModelFloat ModelLexi ModelPlatforms ModelPointer SpecPointer ProofPointer.

(** C95 is false for arrays: one that is full has no terminator, and what is behind the first NUL
    is not looked at. *)
Theorem C95_array_refuted : exists e b, Forall (fun c => c <> None) b /\ (exists w, p_lexi e (PointerTo b 0) = UB w) /\
  exists t b', Forall (fun c => c <> None) b' /\ b' <> map Some t ++ [Some NUL] /\ p_lexi e (PointerTo b' 0) = Ok t.
Proof. exact array_refuted. Qed.
Print Assumptions C95_array_refuted.

(** Where there is a terminated text, every function does with the pointer what it does with the
    std::string of that text... *)
Theorem C95_defined : forall e p t, text_of p t -> string_from p = Ok t /\ p_lexi e p = Ok t /\ p_string e p = Ok t /\
  p_escape e p = escape_of e (VString t) /\ p_jsonify e p = jsonify_of e (VString t) /\
  forall point T, p_extract e point T p = extract e point T t.
Proof. exact pointer_defined. Qed.
Print Assumptions C95_defined.

(** ... and where there is none (null pointers included) every function is undefined. *)
Theorem C95_undefined : forall e p, (forall t, ~ text_of p t) -> (exists w, p_lexi e p = UB w) /\ (exists w, p_string e p = UB w) /\
  (exists w, p_escape e p = UB w) /\ (exists w, p_jsonify e p = UB w) /\ forall point T, exists w, p_extract e point T p = UB w.
Proof. exact pointer_undefined. Qed.
Print Assumptions C95_undefined.

(** The pointers that the formatter objects hand out are pointers to their texts: data() and c_str()
    can be formatted and extracted from again. *)
Theorem C95_own_text : forall e v f point T, platform_ok (e_platform e) -> nan_ok (e_float e) -> e_lit e = default_literals -> value_ok e v ->
  Format e v = Ok f -> v <> VChar NUL ->
  p_lexi e (f_pointer f) = lexi e v /\ p_extract e point T (f_pointer f) = (let* s := lexi e v in extract e point T s).
Proof. exact formatted_read. Qed.
Print Assumptions C95_own_text.

(** Only the character NUL is lost. *)
Theorem C95_nul : forall e f, Format e (VChar NUL) = Ok f -> p_lexi e (f_pointer f) = Ok [].
Proof. exact nul_read. Qed.
Print Assumptions C95_nul.

(** The functions of ModelLexi on C strings are these. *)
Theorem C95_model : forall e s, let p := PointerTo (map Some s ++ [Some NUL]) 0 in
  p_lexi e p = lexi e (VCString s) /\ p_string e p = string_of e (VCString s) /\ p_escape e p = escape_of e (VCString s) /\
  p_jsonify e p = jsonify_of e (VCString s) /\ forall point T, p_extract e point T p = extract_cstr e point T s.
Proof. exact cstring_agrees. Qed.
Print Assumptions C95_model.

Example C95_case : let e := linux_x86_64 Strict in let b := map Some (str "x-12") ++ [Some NUL; None] in
  p_extract e "."%char (TInt Short) (PointerTo b 1) = Ok (XInt (-12)) /\ p_lexi e (PointerTo b 4) = Ok [] /\
  p_jsonify e (PointerTo b 3) = Ok ([chr 34] ++ str "2" ++ [chr 34]) /\ (exists w, p_lexi e (PointerTo b 5) = UB w) /\
  (exists w, p_extract e "."%char TBool NullPointer = UB w).
Proof. repeat (split; [vm_compute; reflexivity|]). split; eexists; vm_compute; reflexivity. Qed.
