(** C84 with any flags: url-safe or not, padded or not. *)
From Coq Require Import Lia String.
From Verif Require Import Base.Bytes Base.BytesFacts Model.Conversion Spec.Codecs Spec.Text Spec.Base64 Proof.Base64Flags.
Open Scope Z_scope.

(** In full: fromBase64 takes the text of RFC 4648 that its flags name and nothing else. Proved: exactly what it takes, and for what. *)
Theorem C84_flags_exact_partial : forall fl text out l, no_nul text -> fromBase64Length fl text = Ok l -> l <= len out ->
  (forall bs, b64_takes (urlsafe fl) (nopad fl) text bs -> len bs <= len out ->
    fromBase64 fl text out = Ok (len bs, bs ++ zeros (length out - length bs))) /\
  ((forall bs, b64_takes (urlsafe fl) (nopad fl) text bs -> len out < len bs) -> fromBase64 fl text out = Ok (0, zeros (length out))).
Proof. exact fl_exact. Qed.
Print Assumptions C84_flags_exact_partial.
(** No text is taken for two arrays. *)
Theorem C84_flags_one_meaning : forall fl text bs bs', b64_takes (urlsafe fl) (nopad fl) text bs -> b64_takes (urlsafe fl) (nopad fl) text bs' -> bs = bs'.
Proof. exact takes_fun. Qed.
Print Assumptions C84_flags_one_meaning.
(** The flags do not say which text: the url-safe flag takes text of the other alphabet ([u] = false) as well, and the
    flag against padding takes padded text ([p] = true), so every array has several texts. *)
Theorem C84_flags_refuted : forall fl u p bs out, (u = true -> urlsafe fl = true) -> (p = false -> nopad fl = true) -> bytes_ok bs -> bs <> [] ->
  len (base64_text u p bs) <= len out ->
  fromBase64 fl (base64_text u p bs) out = Ok (len bs, bs ++ zeros (length out - length bs)).
Proof. exact lenient. Qed.
Print Assumptions C84_flags_refuted.

Definition b64_loose : b64_flags := {| nopad := true; urlsafe := true |}.
Example C84_flags_case : base64_text true false [251; 255; 254; 62] = chars "-__-Pg" /\
  fromBase64 b64_loose (chars "-__-Pg") (zeros 6) = Ok (4, [251; 255; 254; 62; 0; 0]) /\
  fromBase64 b64_loose (chars "+//+Pg") (zeros 6) = Ok (4, [251; 255; 254; 62; 0; 0]) /\
  fromBase64 b64_loose (chars "+_/-Ph==") (zeros 6) = Ok (4, [251; 255; 254; 62; 0; 0]) /\
  fromBase64 b64_loose (chars "-__-Pg=") (zeros 6) = Ok (4, [251; 255; 254; 62; 0; 0]) /\
  fromBase64 b64_loose (chars "-__-P") (zeros 6) = Ok (0, zeros 6) /\
  fromBase64 {| nopad := true; urlsafe := false |} (chars "-__-Pg") (zeros 6) = Ok (0, zeros 6) /\
  fromBase64 {| nopad := false; urlsafe := true |} (chars "-__-Pg") (zeros 6) = Ok (0, zeros 6).
Proof. vm_compute. repeat split. Qed.
