(** Words used to state C84 for every combination of flags. *)
From Verif Require Import Base.Bytes Spec.Codecs Spec.Text.
Open Scope Z_scope.

(** [c] stands for [d]: with the url-safe flag in either alphabet of RFC 4648. *)
Definition b64_value (url : bool) (c d : Z) : Prop :=
  0 <= d < 64 /\ (c = nth (Z.to_nat d) (b64_alphabet false) 0 \/ (url = true /\ c = nth (Z.to_nat d) (b64_alphabet true) 0)).
(** What the decoder takes text for, [url] and [nop] being the flags. Without padding the text may end after two or three
    characters of a group; '=' (61) ends it all the same, and whatever follows has no meaning. *)
Inductive b64_takes (url nop : bool) : list Z -> list Z -> Prop :=
| bt_end : b64_takes url nop [] []
| bt_four : forall c0 c1 c2 c3 d0 d1 d2 d3 t bs, b64_value url c0 d0 -> b64_value url c1 d1 -> b64_value url c2 d2 -> b64_value url c3 d3 ->
    b64_takes url nop t bs -> b64_takes url nop (c0 :: c1 :: c2 :: c3 :: t) (be_bytes 3 (((d0 * 64 + d1) * 64 + d2) * 64 + d3) ++ bs)
| bt_three : forall c0 c1 c2 d0 d1 d2 t, b64_value url c0 d0 -> b64_value url c1 d1 -> b64_value url c2 d2 ->
    b64_takes url nop (c0 :: c1 :: c2 :: 61 :: t) (be_bytes 2 (((d0 * 64 + d1) * 64 + d2) / 4))
| bt_two : forall c0 c1 d0 d1 t, b64_value url c0 d0 -> b64_value url c1 d1 -> (t <> [] \/ nop = true) ->
    b64_takes url nop (c0 :: c1 :: 61 :: t) [(d0 * 64 + d1) / 16]
| bt_three_end : forall c0 c1 c2 d0 d1 d2, nop = true -> b64_value url c0 d0 -> b64_value url c1 d1 -> b64_value url c2 d2 ->
    b64_takes url nop [c0; c1; c2] (be_bytes 2 (((d0 * 64 + d1) * 64 + d2) / 4))
| bt_two_end : forall c0 c1 d0 d1, nop = true -> b64_value url c0 d0 -> b64_value url c1 d1 -> b64_takes url nop [c0; c1] [(d0 * 64 + d1) / 16].
