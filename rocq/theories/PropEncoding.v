(** Property C102: long doubles as bits. *)
From Coq Require Import Reals.
From Flocq Require Import Core.
From Verif Require Import Machine SpecIeee SpecRead SpecApi SpecEncoding ModelItoa ModelInt ModelText ModelDtoa ModelFloat ModelLexi ModelPlatforms
  ModelEncoding ProofEncoding.
Open Scope Z_scope.

(** Whatever the bits, the text is that of a double: the nearest one to the number they stand for, the
    infinity, or a NaN. *)
Theorem C102_printed : forall e u, nan_ok (e_float e) -> object_bits (fe_ld (e_float e)) u ->
  exists w, bits64 w /\ lexi_object e u = lexi e (VDouble w) /\ jsonify_object e u = jsonify_of e (VDouble w) /\
    double_for w (object_meaning (fe_ld (e_float e)) u).
Proof. exact object_printed. Qed.
Print Assumptions C102_printed.

(** The text depends on what the bits mean only. *)
Theorem C102_text : forall e u v, object_bits (fe_ld (e_float e)) u -> object_bits (fe_ld (e_float e)) v ->
  object_meaning (fe_ld (e_float e)) u = object_meaning (fe_ld (e_float e)) v ->
  lexi_object e u = lexi_object e v /\ jsonify_object e u = jsonify_object e v.
Proof. exact object_text. Qed.
Print Assumptions C102_text.

(** Different bits are the same number only in the x87 format, and there only as a pseudo-denormal and a
    normal number. *)
Theorem C102_same : forall f u v, object_bits f u -> object_bits f v -> object_meaning f u <> NotNumber ->
  (object_meaning f u = object_meaning f v <-> u = v \/ (f = LD80 /\ twins u v)).
Proof. exact object_same. Qed.
Print Assumptions C102_same.

(** What is read from any text is stored as bits that mean the number and have its text, and never as a
    pseudo-denormal. *)
Theorem C102_read : forall e nan point s, point_ok point -> object_bits (fe_ld (e_float e)) nan -> object_meaning (fe_ld (e_float e)) nan = NotNumber ->
  exists u x, extract_object e nan point s = Ok u /\ extract e point TLongDouble s = Ok (XFloating x) /\ object_bits (fe_ld (e_float e)) u /\
    object_meaning (fe_ld (e_float e)) u = number_meaning x /\ lexi_object e u = lexi e (VLongDouble x) /\
    (fe_ld (e_float e) = LD80 -> object_meaning LD80 u <> NotNumber -> field u 64 15 = 0 -> field u 63 1 = 0).
Proof. exact object_read. Qed.
Print Assumptions C102_read.

(** 1.5; without its first bit, an unnormal; a pseudo-infinity; a pseudo-denormal and its twin; the largest
    number, beyond double; 1.5 in the other formats. *)
Example C102_case : let e := linux_x86_64 zero_memory in
  lexi_object e 0x3FFFC000000000000000 = Ok (str "1.5") /\ lexi_object e 0x3FFF4000000000000000 = Ok (str "NaN") /\
  lexi_object e 0x7FFF0000000000000000 = Ok (str "NaN") /\ lexi_object e 0xFFFF8000000000000000 = Ok (str "-Infinity") /\
  lexi_object e 0x00008000000000000001 = Ok (str "0.0") /\ lexi_object e 0x00018000000000000001 = Ok (str "0.0") /\
  lexi_object e 0x7FFEFFFFFFFFFFFFFFFF = Ok (str "Infinity") /\
  lexi_object (windows_x64 zero_memory) 0xBFF8000000000000 = Ok (str "-1.5") /\
  lexi_object (linux_aarch64 zero_memory) 0x3FFF8000000000000000000000000000 = Ok (str "1.5") /\
  extract_object e 0xFFFFC000000000000000 "."%char (str "-0x1.8p-16383") = Ok 0x80006000000000000000.
Proof. cbv zeta. repeat (split; [vm_compute; reflexivity|]). vm_compute. reflexivity. Qed.
Example C102_twins : twins 0x00008000000000000001 0x00018000000000000001.
Proof. unfold twins. repeat (split; [vm_compute; reflexivity|]). left. split; vm_compute; reflexivity. Qed.
