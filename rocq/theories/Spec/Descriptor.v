(** The descriptor checksum of BIP380, written from its text (the Python functions
    descsum_polymod, descsum_expand and descsum_create). *)
From Verif Require Import Base.Bytes.
Open Scope Z_scope.

Definition INPUT_CHARSET : string :=
  "0123456789()[],'/*abcdefgh@:$%{}IJKLMNOPQRSTUVWXYZ&+-.;<=>?!^_|~ijklmnopqrstuvwxyzABCDEFGH`#""\ ".
Definition CHECKSUM_CHARSET : string := "qpzry9x8gf2tvdw0s3jn54khce6mua7l".
Definition GENERATOR : list Z := [0xf5dee51989; 0xa9fdca3312; 0x1bab10e32d; 0x3706b1677a; 0x644d626ffd].

Definition polymod_step (chk value : Z) : Z :=
  let top := Z.shiftr chk 35 in
  let chk := Z.lxor (Z.shiftl (Z.land chk 0x7ffffffff) 5) value in
  fold_left (fun chk i => Z.lxor chk (if Z.testbit top i then nth (Z.to_nat i) GENERATOR 0 else 0)) [0; 1; 2; 3; 4] chk.
Definition descsum_polymod (symbols : list Z) : Z := fold_left polymod_step symbols 1.
(** Symbols of the positions of the characters, in groups of three. *)
Fixpoint descsum_expand (vs : list Z) : list Z :=
  match vs with
  | [] => []
  | [a] => [Z.land a 31; Z.shiftr a 5]
  | [a; b] => [Z.land a 31; Z.land b 31; Z.shiftr a 5 * 3 + Z.shiftr b 5]
  | a :: b :: c :: t =>
      [Z.land a 31; Z.land b 31; Z.land c 31; Z.shiftr a 5 * 9 + Z.shiftr b 5 * 3 + Z.shiftr c 5] ++ descsum_expand t
  end.
(** The positions of the characters; None when one is not in the character set. *)
Fixpoint positions (s : list Z) : option (list Z) :=
  match s with
  | [] => Some []
  | ch :: t =>
      match index_of ch (chars INPUT_CHARSET), positions t with
      | Some v, Some vs => Some (v :: vs)
      | _, _ => None
      end
  end.
(** The eight checksum characters. *)
Definition descsum (s : list Z) : option (list Z) :=
  match positions s with
  | None => None
  | Some vs =>
      let checksum := Z.lxor (descsum_polymod (descsum_expand vs ++ repeat 0 8)) 1 in
      Some (map (fun i => nth (Z.to_nat (Z.land (Z.shiftr checksum (5 * (7 - i))) 31)) (chars CHECKSUM_CHARSET) 0)
                [0; 1; 2; 3; 4; 5; 6; 7])
  end.
