(** ECDSA signatures in DER (BIP 66), independent of the model. *)
From Verif Require Import Base.Bytes Model.Signature.
Open Scope Z_scope.

(** The content octets of the DER INTEGER [x >= 0]: big endian, first bit 0, no
    superfluous zero byte in front. *)
Definition der_integer (x : Z) (l : list Z) : Prop :=
  bytes_ok l /\ l <> [] /\ hd 0 l < 128 /\ be_val 256 l = x /\
  match l with 0 :: b :: _ => 128 <= b | _ => True end.
(** SEQUENCE { INTEGER x, INTEGER y }. *)
Definition der_sig (x y : Z) (l : list Z) : Prop :=
  exists a b, der_integer x a /\ der_integer y b /\
    l = [48; 4 + len a + len b; 2; len a] ++ a ++ [2; len b] ++ b.

(** The pair of numbers a signature object holds. *)
Definition sig_holds (g : signature) (x y : Z) : Prop :=
  length (sg_r g) = 32%nat /\ bytes_ok (sg_r g) /\ be_val 256 (sg_r g) = x /\
  length (sg_s g) = 32%nat /\ bytes_ok (sg_s g) /\ be_val 256 (sg_s g) = y.
(** A byte string with its second byte replaced. *)
Definition with_total (d : list Z) (t : Z) : list Z := hd 0 d :: t :: skipn 2 d.
(** A first piece of [k] bytes of the DER signature [d] from which the parser goes on: all of
    it, or the length of the second number and one byte of that number which is not zero.
    A second number of one byte may be missing. *)
Definition der_start (d : list Z) (k : nat) : Prop :=
  let a := Z.to_nat (nth 3 d 0) in
  (length d <= k)%nat \/
  ((6 + a <= k)%nat /\ (nth (5 + a) d 0 = 1 \/ exists i, (6 + a <= i < k)%nat /\ nth i d 0 <> 0)).
