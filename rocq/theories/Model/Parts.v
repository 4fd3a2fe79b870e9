(** Extended keys made from their parts: constructors in src/HDWallet.cpp. *)
From Verif Require Import Base.Bytes Model.Stream Model.Networks Model.Sign Model.Bignum Model.HD Model.PointOps.
Open Scope Z_scope.

(** The arguments behind the key itself, HDWallet.cpp:37-42 and 680-685; no fingerprint is a NULL pointer. *)
Record parts := mkParts { pa_chain : list Z; pa_depth : Z; pa_fp : option (list Z); pa_child : Z; pa_net : network; pa_type : script_type }.
(** HDWallet.cpp:50-54 and 693-697. *)
Definition pa_print (p : parts) : list Z := match pa_fp p with Some f => f | None => zeros 4 end.
(** HDWallet.cpp:36-55. The multiplication (45) uses the random number [rz]; its result is the public key, which the model
    computes again where it is used (Model/HD.v). *)
Definition hk_make (rz : bn) (secret : list Z) (p : parts) : outcome hdpriv :=
  let! _ := pt_mul rz secret GeneratorPoint in
  Ok (mkHk secret (pa_chain p) (pa_depth p) (pa_print p) (pa_child p) (pa_net p) (pa_type p) (zeros 4) DONE 0).
(** HDWallet.cpp:679-698. *)
Definition hp_make (point : list Z) (p : parts) : hdpub :=
  mkHp point (pa_chain p) (pa_depth p) (pa_print p) (pa_child p) (pa_net p) (pa_type p) (zeros 4) DONE 0.
