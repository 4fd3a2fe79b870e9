(** Proofs about multisig scripts and pushes. *)
From Coq Require Import Lia Permutation.
From Verif Require Import Base.Bytes Base.BytesFacts Model.Conversion Model.Stream Model.Script Spec.Codecs Spec.Wire Spec.Objects Spec.Ops.
From Verif Require Import Proof.IntVarint Proof.StreamFacts Proof.ScriptFacts Proof.IoProps Proof.SignFacts.
Open Scope Z_scope.

(** ** Reading scripts *)
Lemma take_push_app n t x d r : take_push n t = Some (d, r) -> take_push n (t ++ x) = Some (d, r ++ x).
Proof.
  unfold take_push. intros H. destruct (Z.leb_spec n (len t)); [|discriminate]. injection H as <- <-.
  rewrite len_app. pose proof (len_nonneg _ x). destruct (Z.leb_spec n (len t + len x)); [|lia].
  rewrite firstn_app, skipn_app. replace (Z.to_nat n - length t)%nat with 0%nat by (unfold len in *; lia).
  cbn [firstn skipn]. rewrite app_nil_r. reflexivity.
Qed.
Lemma take_sized_app w t x d r : take_sized w t = Some (d, r) -> take_sized w (t ++ x) = Some (d, r ++ x).
Proof.
  unfold take_sized. intros H. destruct (Z.leb_spec (Z.of_nat w) (len t)); [|discriminate].
  rewrite len_app. pose proof (len_nonneg _ x). destruct (Z.leb_spec (Z.of_nat w) (len t + len x)); [|lia].
  rewrite firstn_app, skipn_app. replace (w - length t)%nat with 0%nat by (unfold len in *; lia).
  cbn [firstn skipn]. rewrite app_nil_r. apply take_push_app, H.
Qed.
Lemma take_push_len n t d r : take_push n t = Some (d, r) -> len t = len d + len r /\ (0 <= n -> len d = n).
Proof.
  unfold take_push. intros H. destruct (Z.leb_spec n (len t)); [|discriminate]. injection H as <- <-.
  unfold len in *. rewrite firstn_length, skipn_length. lia.
Qed.
Lemma take_sized_len w t d r : take_sized w t = Some (d, r) -> len t = Z.of_nat w + len d + len r.
Proof.
  unfold take_sized. intros H. destruct (Z.leb_spec (Z.of_nat w) (len t)); [|discriminate].
  apply take_push_len in H. destruct H as [H _]. unfold len in *. rewrite skipn_length in H. lia.
Qed.

(** More fuel than bytes changes nothing, and what follows is read after. *)
Lemma read_items_app x l2 : forall f bs l1, (length bs <= f)%nat -> read_items f bs = Some l1 ->
  forall f2, (length bs + length x <= f2)%nat -> (forall g, (length x <= g)%nat -> read_items g x = l2) ->
  read_items f2 (bs ++ x) = match l2 with Some l => Some (l1 ++ l) | None => None end.
Proof.
  induction f as [|k IH]; intros bs l1 F H f2 F2 X; (destruct bs as [|c t]; [cbn [read_items app] in *|]).
  - injection H as <-. rewrite X by (cbn in F2; lia). destruct l2; reflexivity.
  - cbn in F. lia.
  - injection H as <-. rewrite X by (cbn in F2; lia). destruct l2; reflexivity.
  - cbn [length] in *. destruct f2 as [|k2]; [lia|]. cbn [read_items app] in H |- *.
    assert (Go : forall r w, match r with
        | None => None | Some (d, rest) => match read_items k rest with None => None | Some l => Some (Push d :: l) end end = Some l1 ->
        (forall d rest, r = Some (d, rest) -> len t = Z.of_nat w + len d + len rest) ->
        forall r', (forall d rest, r = Some (d, rest) -> r' = Some (d, rest ++ x)) ->
        match r' with
        | None => None | Some (d, rest) => match read_items k2 rest with None => None | Some l => Some (Push d :: l) end end =
        match l2 with Some l => Some (l1 ++ l) | None => None end).
    { intros r w Hr Lr r' R'. destruct r as [[d rest]|]; [|discriminate]. specialize (Lr d rest eq_refl).
      rewrite (R' d rest eq_refl). destruct (read_items k rest) as [l|] eqn:E; [|discriminate]. injection Hr as <-.
      pose proof (len_nonneg _ d). unfold len in *.
      rewrite (IH rest l ltac:(lia) E k2 ltac:(lia) X). destruct l2; reflexivity. }
    destruct ((1 <=? c) && (c <=? 75)).
    + apply (Go _ 0%nat H).
      * intros d rest E. apply take_push_len in E. lia.
      * intros d rest E. apply take_push_app, E.
    + destruct (c =? 76); [|destruct (c =? 77); [|destruct (c =? 78)]].
      * apply (Go _ 1%nat H); [intros d rest E; apply take_sized_len in E; lia|intros d rest E; apply take_sized_app, E].
      * apply (Go _ 2%nat H); [intros d rest E; apply take_sized_len in E; lia|intros d rest E; apply take_sized_app, E].
      * apply (Go _ 4%nat H); [intros d rest E; apply take_sized_len in E; lia|intros d rest E; apply take_sized_app, E].
      * destruct (read_items k t) as [l|] eqn:E; [|discriminate]. injection H as <-.
        rewrite (IH t l ltac:(lia) E k2 ltac:(lia) X). destruct l2; reflexivity.
Qed.
Lemma reads_app bs items x l : reads_as bs items -> (forall g, (length x <= g)%nat -> read_items g x = l) ->
  read_items (length (bs ++ x)) (bs ++ x) = match l with Some l => Some (items ++ l) | None => None end.
Proof.
  intros R X. apply (read_items_app x l (length bs)); auto. rewrite app_length. lia.
Qed.
(** Any fuel that is enough gives the same. *)
Lemma fuel_any : forall f g bs, (length bs <= f)%nat -> (length bs <= g)%nat -> read_items f bs = read_items g bs.
Proof.
  induction f as [|k IH]; intros g bs F G; (destruct bs as [|c t]; [destruct g; reflexivity|]); cbn [length] in *; [lia|].
  destruct g as [|g]; [lia|]. cbn [read_items].
  assert (K : forall r, (forall d rest, r = Some (d, rest) -> len rest <= len t) ->
    match r with None => None | Some (d, rest) => match read_items k rest with None => None | Some l => Some (Push d :: l) end end =
    match r with None => None | Some (d, rest) => match read_items g rest with None => None | Some l => Some (Push d :: l) end end).
  { intros r L. destruct r as [[d rest]|]; [|reflexivity]. specialize (L d rest eq_refl). unfold len in L.
    rewrite (IH g rest) by lia. reflexivity. }
  destruct ((1 <=? c) && (c <=? 75)); [apply K; intros d rest E; apply take_push_len in E; pose proof (len_nonneg _ d); lia|].
  destruct (c =? 76); [apply K; intros d rest E; apply take_sized_len in E; pose proof (len_nonneg _ d); lia|].
  destruct (c =? 77); [apply K; intros d rest E; apply take_sized_len in E; pose proof (len_nonneg _ d); lia|].
  destruct (c =? 78); [apply K; intros d rest E; apply take_sized_len in E; pose proof (len_nonneg _ d); lia|].
  rewrite (IH g t) by lia. reflexivity.
Qed.

(** A direct push. *)
Lemma read_direct d : 1 <= len d <= 75 -> forall g, (length (len d :: d) <= g)%nat -> read_items g (len d :: d) = Some [Push d].
Proof.
  intros L g G. destruct g as [|g]; [cbn in G; lia|]. cbn [read_items].
  destruct (Z.leb_spec 1 (len d)); [|lia]. destruct (Z.leb_spec (len d) 75); [|lia]. cbn [andb]. unfold take_push.
  rewrite Z.leb_refl. unfold len. rewrite Nat2Z.id, firstn_all, skipn_all. destruct g; reflexivity.
Qed.
Lemma reads_direct bs items d : reads_as bs items -> 1 <= len d <= 75 -> reads_as (bs ++ len d :: d) (items ++ [Push d]).
Proof. intros R L. unfold reads_as. apply (reads_app bs items (len d :: d) (Some [Push d]) R). apply read_direct, L. Qed.

(** ** Pushes *)
Lemma push_key_reads s bs items sec : script_holds s bs -> reads_as bs items -> key_bytes sec -> len bs + 1 + len sec <= 10000 ->
  exists bs', script_holds (script_push_pubkey s sec) bs' /\ reads_as bs' (items ++ [Push sec]).
Proof.
  intros H R (B & L) M. exists (bs ++ len sec :: sec). split.
  - unfold script_push_pubkey. replace (bs ++ len sec :: sec) with ((bs ++ [u8 (len sec)]) ++ sec).
    + apply push_holds; auto; [apply push_byte_holds; auto|]; [pose proof (len_nonneg _ sec); lia|]. rewrite len_app. change (len [u8 (len sec)]) with 1. lia.
    + rewrite <- app_assoc. cbn [app]. rewrite u8_id; [reflexivity|]. unfold len. lia.
  - destruct L as [L|L]; apply reads_direct; auto; unfold len; lia.
Qed.
Lemma push_sig_reads s bs items der t : script_holds s bs -> reads_as bs items -> bytes_ok der -> byte_ok t ->
  len der <= 74 -> len bs + 2 + len der <= 10000 ->
  exists bs', script_holds (script_push_sig s der t) bs' /\ reads_as bs' (items ++ [Push (der ++ [t])]).
Proof.
  intros H R B T L M. pose proof (len_nonneg _ der). exists (bs ++ len (der ++ [t]) :: der ++ [t]). split.
  - unfold script_push_sig. replace (bs ++ len (der ++ [t]) :: der ++ [t]) with (((bs ++ [u8 (len der + 1)]) ++ der) ++ [u8 t]).
    + assert (L1 : len (bs ++ [u8 (len der + 1)]) = len bs + 1) by (rewrite len_app; reflexivity).
      apply push_byte_holds; [apply push_holds; auto; [apply push_byte_holds; auto; lia|lia]|]. rewrite len_app, L1. lia.
    + rewrite <- !app_assoc. cbn [app]. rewrite len_app. change (len [t]) with 1.
      rewrite u8_id by lia. unfold byte_ok in T. rewrite (u8_id t) by lia. reflexivity.
  - apply reads_direct; auto. rewrite len_app. change (len [t]) with 1. lia.
Qed.
Lemma compact_small n : 0 <= n < 253 -> compact_size n = [n].
Proof. intros L. unfold compact_size. destruct (Z.ltb_spec n 253); [reflexivity|lia]. Qed.
Lemma push_script_reads s bs items r code : script_holds s bs -> reads_as bs items -> script_holds r code -> 1 <= len code <= 75 ->
  len bs + 1 + len code <= 10000 ->
  exists s' bs', script_push_script s r = Ok s' /\ script_holds s' bs' /\ reads_as bs' (items ++ [Push code]).
Proof.
  intros H R Hr L M. assert (W : wire_bytes code = len code :: code) by (unfold wire_bytes; rewrite compact_small by lia; reflexivity).
  destruct (push_script_holds s bs r code H Hr) as (s' & E & H'); [rewrite W, len_cons; lia|].
  exists s', (bs ++ wire_bytes code). split; [exact E|]. split; [exact H'|]. rewrite W. apply reads_direct; auto.
Qed.

(** A compact size is no push of what follows, from 76 bytes on. *)
Lemma read_one_len g x d : read_items g x = Some [Push d] ->
  exists c t, x = c :: t /\ ((1 <= c <= 75 /\ len d = c /\ len x = 1 + len d) \/ (c = 76 /\ len x = 2 + len d) \/ (c = 77 /\ len x = 3 + len d) \/ (c = 78 /\ len x = 5 + len d)).
Proof.
  intros H. destruct x as [|c t]; [destruct g; discriminate|]. exists c, t. split; [reflexivity|]. rewrite len_cons.
  destruct g as [|k]; [discriminate|]. cbn [read_items] in H.
  assert (K : forall r, match r with None => None | Some (d0, rest) => match read_items k rest with None => None | Some l => Some (Push d0 :: l) end end = Some [Push d] ->
    exists rest, r = Some (d, rest) /\ rest = []).
  { intros r Hr. destruct r as [[d0 rest]|]; [|discriminate]. exists rest.
    destruct (read_items k rest) as [l|] eqn:E; [|discriminate]. injection Hr as -> ->. split; [reflexivity|].
    destruct rest as [|y z]; [reflexivity|]. destruct k as [|k]; [discriminate|]. cbn [read_items] in E.
    repeat match type of E with context [if ?b then _ else _] => destruct b end;
      repeat match type of E with context [match ?b with _ => _ end] => destruct b end; discriminate. }
  destruct (Z.leb_spec 1 c); [destruct (Z.leb_spec c 75)|]; cbn [andb] in H.
  - destruct (K _ H) as (rest & E & ->). apply take_push_len in E. destruct E as [E1 E2]. rewrite len_nil in E1. left. lia.
  - destruct (Z.eqb_spec c 76); [destruct (K _ H) as (rest & E & ->); apply take_sized_len in E; rewrite len_nil in E; right; left; lia|].
    destruct (Z.eqb_spec c 77); [destruct (K _ H) as (rest & E & ->); apply take_sized_len in E; rewrite len_nil in E; right; right; left; lia|].
    destruct (Z.eqb_spec c 78); [destruct (K _ H) as (rest & E & ->); apply take_sized_len in E; rewrite len_nil in E; right; right; right; lia|].
    destruct (read_items k t); discriminate.
  - destruct (Z.eqb_spec c 76); [lia|]. destruct (Z.eqb_spec c 77); [lia|]. destruct (Z.eqb_spec c 78); [lia|].
    destruct (read_items k t); discriminate.
Qed.
Lemma compact_not_push code : 76 <= len code -> len code < 2^31 -> forall g, read_items g (wire_bytes code) <> Some [Push code].
Proof.
  intros L U g H. apply read_one_len in H. destruct H as (c & t & E & C). unfold wire_bytes, compact_size in E, C.
  destruct (Z.ltb_spec (len code) 253).
  - cbn [app] in E, C. injection E as <- <-. rewrite len_cons in C. lia.
  - destruct (len code <? 2^16); [|destruct (len code <? 2^32)]; cbn [app] in E; injection E as <- _; lia.
Qed.
Lemma push_script_bad s bs items r code s' : script_holds s bs -> reads_as bs items -> script_holds r code -> 76 <= len code ->
  len bs + len (wire_bytes code) <= 10000 -> script_push_script s r = Ok s' ->
  ~ reads_as (sc_arr s') (items ++ [Push code]).
Proof.
  intros H R Hr L M E C. destruct (push_script_holds s bs r code H Hr M) as (s2 & E2 & H2). rewrite E in E2. injection E2 as <-.
  destruct H2 as (A & _). rewrite A in C. unfold reads_as in C.
  rewrite (reads_app bs items (wire_bytes code) (read_items (length (wire_bytes code)) (wire_bytes code)) R) in C.
  2:{ intros g G. apply fuel_any; lia. }
  destruct (read_items (length (wire_bytes code)) (wire_bytes code)) as [l|] eqn:Q; [|discriminate].
  injection C as C. apply app_inv_head in C. subst l. destruct Hr as (_ & _ & _ & U). exact (compact_not_push code L U _ Q).
Qed.

(** ** The size limit *)
Lemma push_limit s bs d : script_holds s bs -> len bs <= 10000 -> bytes_ok d ->
  exists bs', script_holds (script_push s d) bs' /\ len bs' <= 10000.
Proof.
  intros H L B. destruct (Z.leb_spec (len bs + len d) 10000) as [M|M].
  - exists (bs ++ d). split; [apply push_holds; auto|rewrite len_app; lia].
  - destruct H as (A & Ls & Bb & U). unfold script_push. rewrite Ls. unfold MAX_SCRIPT_SIZE. rewrite Z.gtb_ltb.
    destruct (Z.ltb_spec 10000 (len bs + len d)); [|lia]. unfold script_clear. rewrite Ls.
    destruct (Z.ltb_spec 0 (len bs)).
    + exists []. unfold script_holds. cbn [sc_arr sc_len]. rewrite len_nil. repeat split; try constructor; lia.
    + exists bs. split; [|lia]. unfold script_holds. auto.
Qed.
Lemma push_call_limit s bs c : script_holds s bs -> len bs <= 10000 -> push_ok c ->
  exists s' bs', push_one s c = Ok s' /\ script_holds s' bs' /\ len bs' <= 10000.
Proof.
  assert (Byte : forall s bs c, script_holds s bs -> len bs <= 10000 -> exists bs', script_holds (script_push_byte s c) bs' /\ len bs' <= 10000).
  { intros s0 bs0 c0 H L. change (script_push_byte s0 c0) with (script_push s0 [u8 c0]). eapply push_limit; eauto.
    constructor; [|constructor]. unfold byte_ok, u8. apply Z.mod_pos_bound. lia. }
  intros H L P. destruct c as [code|data|sec|der t|r]; cbn [push_one push_ok] in *.
  - destruct (Byte s bs code H L) as (bs' & ? & ?). eauto.
  - destruct (push_limit s bs data H L P) as (bs' & ? & ?). eauto.
  - unfold script_push_pubkey. destruct (Byte s bs (len sec) H L) as (b1 & H1 & L1).
    destruct (push_limit _ _ sec H1 L1 P) as (b2 & H2 & L2). eauto.
  - unfold script_push_sig. destruct (Byte s bs (len der + 1) H L) as (b1 & H1 & L1).
    destruct (push_limit _ _ der H1 L1 P) as (b2 & H2 & L2). destruct (Byte _ _ t H2 L2) as (b3 & H3 & L3). eauto.
  - destruct P as (P1 & P2 & P3). assert (Hr : script_holds r (sc_arr r)) by (unfold script_holds; repeat split; auto; lia).
    destruct (script_slices _ _ Hr) as (G & Lr). unfold script_push_script. rewrite Lr.
    specialize (G (Z.to_nat (len (wire_bytes (sc_arr r)))) 0 ltac:(lia)). cbv zeta in G. cbn [Z.to_nat skipn] in G. rewrite G. cbn [bind snd].
    replace (firstn (Z.to_nat (len (wire_bytes (sc_arr r)))) (wire_bytes (sc_arr r))) with (wire_bytes (sc_arr r)) by (symmetry; apply firstn_all2; unfold len; lia).
    match goal with |- context [script_push s ?d] => destruct (push_limit s bs d H L) as (b & Hb & Lb) end; [|eauto].
    apply bytes_app; [unfold wire_bytes; apply bytes_app; auto; apply compact_size_ok; pose proof (len_nonneg _ (sc_arr r)); lia|].
    unfold zeros. apply Forall_forall. intros y Y. apply repeat_spec in Y. subst y. unfold byte_ok. lia.
Qed.
Lemma push_all_limit : forall l s bs, script_holds s bs -> len bs <= 10000 -> Forall push_ok l ->
  exists s', push_all s l = Ok s' /\ sc_len s' = len (sc_arr s') /\ sc_len s' <= 10000.
Proof.
  induction l as [|c t IH]; intros s bs H L F; cbn [push_all].
  - exists s. destruct H as (<- & E & _). rewrite E. auto.
  - destruct (push_call_limit s bs c H L (Forall_inv F)) as (s1 & b1 & -> & H1 & L1). cbn [bind].
    exact (IH s1 b1 H1 L1 (Forall_inv_tail F)).
Qed.

(** At the limit the push of a key or signature is torn apart. *)
Lemma torn_key s bs sec : script_holds s bs -> len bs = 10000 -> key_bytes sec -> sc_arr (script_push_pubkey s sec) = sec.
Proof.
  intros (A & Ls & _) L (B & K). unfold script_push_pubkey, script_push_byte. rewrite Ls, L. change (10000 + 1 >? MAX_SCRIPT_SIZE) with true. cbv iota.
  unfold script_clear. rewrite Ls, L. change (0 <? 10000) with true. cbv iota. unfold script_push. cbn [sc_len sc_arr app].
  destruct (Z.gtb_spec (0 + len sec) MAX_SCRIPT_SIZE) as [C|C]; [unfold MAX_SCRIPT_SIZE, len in C; lia|]. reflexivity.
Qed.
Lemma torn_sig s bs der t : script_holds s bs -> byte_ok t -> len bs < 10000 < len bs + 1 + len der -> sc_arr (script_push_sig s der t) = [t].
Proof.
  intros (A & Ls & _) T L. pose proof (len_nonneg _ bs). unfold script_push_sig. unfold script_push_byte at 2. rewrite Ls.
  unfold MAX_SCRIPT_SIZE at 1. destruct (Z.gtb_spec (len bs + 1) 10000) as [C|C]; [lia|].
  unfold script_push. cbn [sc_len]. unfold MAX_SCRIPT_SIZE at 1. destruct (Z.gtb_spec (len bs + 1 + len der) 10000) as [D|D]; [|lia].
  unfold script_clear. cbn [sc_len]. destruct (Z.ltb_spec 0 (len bs + 1)); [|lia]. unfold script_push_byte. cbn [sc_len sc_arr app].
  change (0 + 1 >? MAX_SCRIPT_SIZE) with false. cbv iota. cbn [sc_arr]. unfold byte_ok in T. rewrite u8_id by lia. reflexivity.
Qed.

(** ** Multisig *)
Lemma fold_keys : forall keys s bs, script_holds s bs -> Forall key_bytes keys -> len bs + 66 * len keys <= 10000 ->
  script_holds (fold_left script_push_pubkey keys s) (bs ++ flat_map (fun k => len k :: k) keys).
Proof.
  induction keys as [|k t IH]; intros s bs H F M; cbn [fold_left flat_map].
  - rewrite app_nil_r. exact H.
  - rewrite len_cons in M. pose proof (len_nonneg _ t). destruct (Forall_inv F) as (B & L).
    assert (Lk : 33 <= len k <= 65) by (unfold len; lia).
    rewrite app_assoc. apply IH; [|exact (Forall_inv_tail F)|rewrite len_app, len_cons; lia].
    unfold script_push_pubkey. replace (bs ++ len k :: k) with ((bs ++ [u8 (len k)]) ++ k).
    + apply push_holds; auto; [apply push_byte_holds; auto; lia|]. rewrite len_app. change (len [u8 (len k)]) with 1. lia.
    + rewrite <- app_assoc. cbn [app]. rewrite u8_id by lia. reflexivity.
Qed.
Lemma flat_keys_le keys : Forall key_bytes keys -> len (flat_map (fun k => len k :: k) keys) <= 66 * len keys.
Proof.
  induction keys as [|k t IH]; intros F; [reflexivity|]. cbn [flat_map]. rewrite len_cons, len_app, len_cons.
  destruct (Forall_inv F) as (B & L). specialize (IH (Forall_inv_tail F)). unfold len in *. lia.
Qed.
Lemma multi_template m keys : 1 <= m <= len keys -> len keys <= 16 -> Forall key_bytes keys ->
  script_holds (multi m keys) (multisig_script m keys).
Proof.
  intros M N F. unfold multi. cbv zeta. rewrite !Z.gtb_ltb.
  destruct (Z.ltb_spec (len keys) m); [lia|]. destruct (Z.eqb_spec (len keys) 0); [lia|]. destruct (Z.ltb_spec 16 (len keys)); [lia|].
  destruct (Z.eqb_spec m 0); [lia|]. cbn [orb].
  pose proof (flat_keys_le keys F) as FL.
  assert (Hn : script_holds script_new []) by (unfold script_holds; cbn; repeat split; try constructor; lia).
  pose proof (push_byte_holds script_new [] (81 + m - 1) Hn ltac:(rewrite len_nil; lia)) as K1. cbn [app] in K1.
  rewrite u8_id in K1 by lia. replace (81 + m - 1) with (80 + m) in K1 |- * by lia.
  pose proof (fold_keys keys _ _ K1 F ltac:(change (len [80 + m]) with 1; lia)) as K2.
  pose proof (push_byte_holds _ _ (81 + len keys - 1) K2 ltac:(rewrite len_app; change (len [80 + m]) with 1; lia)) as K3.
  rewrite u8_id in K3 by lia.
  pose proof (push_byte_holds _ _ 174 K3 ltac:(rewrite !len_app; change (len [80 + m]) with 1; change (len [81 + len keys - 1]) with 1; lia)) as K4.
  change (u8 174) with 174 in K4. replace (81 + len keys - 1) with (80 + len keys) in K4 |- * by lia.
  unfold multisig_script. rewrite <- !app_assoc in K4. exact K4.
Qed.
Lemma multi_empty m keys : 0 <= m -> m = 0 \/ len keys < m \/ 16 < len keys -> multi m keys = script_new.
Proof.
  intros Z0 H. unfold multi. cbv zeta. rewrite !Z.gtb_ltb. pose proof (len_nonneg _ keys).
  destruct (Z.ltb_spec (len keys) m); [reflexivity|]. destruct (Z.eqb_spec (len keys) 0); [reflexivity|].
  destruct (Z.ltb_spec 16 (len keys)); [reflexivity|]. destruct (Z.eqb_spec m 0); [reflexivity|]. lia.
Qed.
Lemma flat_keys_inj : forall a b x y, Forall key_bytes a -> Forall key_bytes b -> len a = len b ->
  flat_map (fun k => len k :: k) a ++ x = flat_map (fun k => len k :: k) b ++ y -> a = b.
Proof.
  induction a as [|k t IH]; intros [|k2 t2] x y Fa Fb L E; try reflexivity; try (rewrite len_nil, len_cons in L; match goal with l : list (list Z) |- _ => pose proof (len_nonneg _ l) end; lia).
  cbn [flat_map] in E. rewrite <- !app_assoc in E. cbn [app] in E. injection E as E1 E2.
  assert (K : k = k2).
  { apply (f_equal (firstn (length k))) in E2. rewrite firstn_app, Nat.sub_diag, firstn_all in E2. cbn [firstn] in E2. rewrite app_nil_r in E2.
    replace (length k) with (length k2) in E2 by (unfold len in E1; lia).
    rewrite firstn_app, Nat.sub_diag, firstn_all in E2. cbn [firstn] in E2. rewrite app_nil_r in E2. exact E2. }
  subst k2. apply app_inv_head in E2. f_equal. rewrite !len_cons in L.
  eapply IH; [exact (Forall_inv_tail Fa)|exact (Forall_inv_tail Fb)|lia|exact E2].
Qed.
Lemma sorted_differs m keys sorted : 1 <= m <= len keys -> len keys <= 16 -> Forall key_bytes keys ->
  Permutation keys sorted -> keys <> sorted -> sc_arr (sortedmulti m keys) <> multisig_script m sorted.
Proof.
  intros M N F P D E. destruct (multi_template m keys M N F) as (A & _). unfold sortedmulti in E. rewrite A in E.
  unfold multisig_script in E. apply (f_equal (@List.tl Z)) in E. cbn [List.tl] in E. apply D.
  eapply flat_keys_inj; [exact F| |unfold len; rewrite (Permutation_length P); reflexivity|exact E].
  apply Forall_forall. intros k I. rewrite Forall_forall in F. apply F. apply (Permutation_in _ (Permutation_sym P)), I.
Qed.
