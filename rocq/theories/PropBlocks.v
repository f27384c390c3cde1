(** C86: how large the blocks of memory are that the functions need. *)
From Verif Require Import Machine SpecMemory SpecBlocks ModelItoa ModelInt ModelString ModelText ModelIeee ModelDiyfp ModelDtoa
  ModelFloat ModelLexi ModelPlatforms ModelMemory ProofBlocks.
Open Scope Z_scope.

(** Three string libraries round up by 15 and double at most. *)
Theorem C86_libraries : forall bits, 8 <= bits -> moderate (libstdcxx bits) /\ moderate (libcxx bits) /\ moderate (microsoft bits).
Proof. exact libraries_moderate. Qed.
Print Assumptions C86_libraries.

(** [lexi] asks for one block, of the size of the text, or for none. *)
Theorem C86_lexi : forall has lib e v s k, lexi e v = Ok s -> size s <= sl_max lib ->
  m_lexi has lib e v k =
    if size s <=? sl_inside lib then (Ok (Text s (sl_inside lib)), k)
    else if has k (sl_exact lib (size s) + 1) then (Ok (Text s (sl_exact lib (size s))), k + 1)
    else (Throw bad_alloc, k + 1).
Proof. exact blocks_lexi. Qed.
Print Assumptions C86_lexi.

(** A failed extraction asks for a block for the message. *)
Theorem C86_extract : forall has lib e point T s w k, extract e point T s = Throw w ->
  m_extract has lib e point T s k =
    if sl_error lib then if has k (size (str w) + 1) then (Throw w, k + 1) else (Throw bad_alloc, k + 1) else (Throw w, k).
Proof. exact blocks_message. Qed.
Print Assumptions C86_extract.

(** [escape] and [jsonify] need no block larger than twice the text they have room for. *)
Theorem C86_escape_jsonify : forall has lib e v s k, library_ok lib -> moderate lib ->
  (escape_of e v = Ok s -> room v s <= sl_max lib -> blocks (2 * room v s + 16) has ->
    exists t k', m_escape_of has lib e v k = (Ok t, k') /\ t_bytes t = s) /\
  (jsonify_of e v = Ok s -> room v s <= sl_max lib -> blocks (2 * room v s + 16) has ->
    exists t k', m_jsonify_of has lib e v k = (Ok t, k') /\ t_bytes t = s).
Proof. exact blocks_large. Qed.
Print Assumptions C86_escape_jsonify.

(** So for a string, four and twelve times its length, and a little. *)
Theorem C86_strings : forall has lib e v src k, library_ok lib -> moderate lib -> source v = Some src ->
  (2 * size src + 1 <= sl_max lib -> blocks (4 * size src + 18) has ->
    exists s t k', escape_of e v = Ok s /\ m_escape_of has lib e v k = (Ok t, k') /\ t_bytes t = s) /\
  (6 * size src + 2 <= sl_max lib -> blocks (12 * size src + 20) has ->
    exists s t k', jsonify_of e v = Ok s /\ m_jsonify_of has lib e v k = (Ok t, k') /\ t_bytes t = s).
Proof. exact blocks_source. Qed.
Print Assumptions C86_strings.

(** Giving memory back at the end keeps the text, and fails only in a library whose [shrink_to_fit] throws. *)
Theorem C86_shrink : forall has lib t k,
  (exists t' k', t_shrink_to_fit has lib t k = (Ok t', k') /\ t_bytes t' = t_bytes t) \/
  (sl_shrink lib = Throwing /\ has k (sl_exact lib (size (t_bytes t)) + 1) = false /\
   t_shrink_to_fit has lib t k = (Throw bad_alloc, k + 1)).
Proof. exact blocks_shrink. Qed.
Print Assumptions C86_shrink.

(** The largest block that is needed: with it the text is made, without it not. *)
Definition needs (m : (Z -> Z -> bool) -> counting text) (n : Z) : Prop :=
  (exists t, fst (m (limited n) 0) = Ok t) /\ fst (m (limited (n - 1)) 0) = Throw bad_alloc.
Ltac needed := split; [eexists; vm_compute; reflexivity|vm_compute; reflexivity].
Example C86_case :
  needs (fun has => m_lexi has (libstdcxx 64) (linux_x86_64 Strict) (VString (repeat "a"%char 100))) 101 /\
  needs (fun has => m_lexi has (libcxx 64) (linux_x86_64 Strict) (VString (repeat "a"%char 100))) 112 /\
  needs (fun has => m_lexi has (microsoft 64) (windows_x64 Strict) (VString (repeat "a"%char 16))) 32 /\
  needs (fun has => m_escape_of has (libstdcxx 64) (linux_x86_64 Strict) (VString (repeat "a"%char 100))) 202 /\
  needs (fun has => m_escape_of has (libstdcxx 64) (linux_x86_64 Strict) (VString (repeat "a"%char 8))) 31 /\
  needs (fun has => m_escape_of has (libcxx 64) (linux_x86_64 Strict) (VString (repeat "a"%char 12))) 48 /\
  needs (fun has => m_escape_of has (microsoft 64) (windows_x64 Strict) (VString (repeat "a"%char 100))) 208 /\
  needs (fun has => m_jsonify_of has (libstdcxx 64) (linux_x86_64 Strict) (VString (repeat "001"%char 1000))) 12001 /\
  needs (fun has => m_jsonify_of has (libcxx 64) (linux_x86_64 Strict) (VString (repeat "001"%char 1000))) 8064 /\
  needs (fun has => m_jsonify_of has (microsoft 64) (windows_x64 Strict) (VString (repeat "001"%char 1000))) 6800.
Proof. repeat (split; [needed|]). needed. Qed.

(** Blocks granted by their number and size. *)
Definition first_large (first rest j m : Z) : bool := if j =? 0 then m <=? first else m <=? rest.
Example C86_case_shrink :
  (* the text is moved into a block of its size, when there is one *)
  m_escape_of (first_large 202 101) (libstdcxx 64) (linux_x86_64 Strict) (VString (repeat "a"%char 100)) 0 =
    (Ok (Text (repeat "a"%char 100) 100), 2) /\
  m_escape_of (first_large 202 100) (libstdcxx 64) (linux_x86_64 Strict) (VString (repeat "a"%char 100)) 0 =
    (Ok (Text (repeat "a"%char 100) 201), 2) /\
  m_escape_of (first_large 208 112) (microsoft 64) (windows_x64 Strict) (VString (repeat "a"%char 100)) 0 =
    (Ok (Text (repeat "a"%char 100) 111), 2) /\
  m_escape_of (first_large 208 111) (microsoft 64) (windows_x64 Strict) (VString (repeat "a"%char 100)) 0 = (Throw bad_alloc, 2) /\
  (* the message of a failed extraction *)
  m_extract (limited 23) (libstdcxx 64) (linux_x86_64 Strict) "."%char TBool (str "yes") 0 =
    (Throw "String is not boolean."%string, 1) /\
  m_extract (limited 22) (libstdcxx 64) (linux_x86_64 Strict) "."%char TBool (str "yes") 0 = (Throw bad_alloc, 1) /\
  m_extract nothing (libcxx 64) (linux_x86_64 Strict) "."%char TBool (str "yes") 0 = (Throw bad_alloc, 1) /\
  m_extract nothing (microsoft 64) (windows_x64 Strict) "."%char TBool (str "yes") 0 = (Throw bad_alloc, 1).
Proof. repeat (split; [vm_compute; reflexivity|]). vm_compute. reflexivity. Qed.

(** The longest strings, if size_t had 8 bits. *)
Example C86_case_longest :
  let ok lib n := fst (m_lexi plenty lib (linux_x86_64 Strict) (VString (repeat "a"%char n)) 0) in
  ok (libstdcxx 8) 127%nat = Ok (Text (repeat "a"%char 127) 127) /\ ok (libstdcxx 8) 128%nat = Throw length_error /\
  ok (libcxx 8) 239%nat = Ok (Text (repeat "a"%char 239) 239) /\ ok (libcxx 8) 240%nat = Throw length_error /\
  ok (microsoft 8) 127%nat = Ok (Text (repeat "a"%char 127) 127) /\ ok (microsoft 8) 128%nat = Throw length_error.
Proof. repeat (split; [vm_compute; reflexivity|]). vm_compute. reflexivity. Qed.
