(** Derivation paths. *)
From Coq Require Import Lia.
From Verif Require Import Base.Bytes Base.BytesFacts Model.Conversion Model.Stream Model.HD Spec.Codecs Spec.HD.
Open Scope Z_scope.

Definition slashes (b : list Z) : nat := count_occ Z.eq_dec b 47.
Definition known (valid : list Z) (c : Z) : Prop := strchr valid c <> None.

Lemma scan_all : forall valid b t cnt, Forall (known valid) b ->
  path_scan valid (b ++ t) (len b) cnt = Ok (Some (cnt + Z.of_nat (slashes b))).
Proof.
  intros valid b t. induction b as [|c b IH]; intros cnt H.
  - cbn [app slashes count_occ]. rewrite Z.add_0_r. destruct t; reflexivity.
  - cbn [app path_scan]. rewrite len_cons. destruct (Z.leb_spec (1 + len b) 0) as [E|_]; [pose proof (len_nonneg _ b); lia|].
    destruct (strchr valid c) eqn:S; [|exfalso; apply (Forall_inv H S)].
    replace (1 + len b - 1) with (len b) by lia. rewrite (IH _ (Forall_inv_tail H)).
    unfold slashes. destruct (Z.eqb_spec c 47) as [->|N].
    + rewrite count_occ_cons_eq by reflexivity. do 2 f_equal. lia.
    + rewrite count_occ_cons_neq by auto. reflexivity.
Qed.
Lemma scan_none : forall valid b t cnt, Exists (fun c => strchr valid c = None) b ->
  path_scan valid (b ++ t) (len b) cnt = Ok None.
Proof.
  intros valid b t. induction b as [|c b IH]; intros cnt H; [inversion H|].
  cbn [app path_scan]. rewrite len_cons. destruct (Z.leb_spec (1 + len b) 0) as [E|_]; [pose proof (len_nonneg _ b); lia|].
  replace (1 + len b - 1) with (len b) by lia.
  destruct (strchr valid c) eqn:S; [|reflexivity].
  apply IH. inversion H; subst; [congruence|assumption].
Qed.
Lemma known_dec : forall valid b, Forall (known valid) b \/ Exists (fun c => strchr valid c = None) b.
Proof.
  intros valid b. induction b as [|c b [IH|IH]]; [left; constructor| |right; now constructor 2].
  destruct (strchr valid c) eqn:S; [left; constructor; [unfold known; congruence|assumption]|right; now constructor].
Qed.

(** The parts of a path. *)
Definition shaped (pre b post : list Z) : Prop :=
  (pre = [] /\ hd 0 (b ++ post) <> 109 \/ exists c, pre = [109; c]) /\
  (post = [47] \/ post = [] /\ pre ++ b <> [] /\ last (pre ++ b) 0 <> 47).
Lemma last_aget : forall l, l <> [] -> aget (l ++ [0]) (len l - 1) = Ok (last l 0).
Proof.
  intros l H. destruct (exists_last H) as [l' [x ->]].
  rewrite last_last, len_app, len_cons, len_nil, <- app_assoc. cbn [app].
  replace (len l' + (1 + 0) - 1) with (len l') by lia. apply aget_mid.
Qed.
Lemma parse_shaped : forall valid fill pre b post, shaped pre b post -> len (pre ++ b ++ post) < 2^63 ->
  path_parse valid fill (pre ++ b ++ post) =
  let! c := path_scan valid (b ++ post ++ [0]) (len b) 1 in
  match c with
  | None => Ok None
  | Some cnt => fill valid (b ++ post ++ [0]) (len b) 0 (zeros (Z.to_nat cnt))
  end.
Proof.
  intros valid fill pre b post [Hp Hs] L. unfold path_parse.
  assert (M : (nth 0 ((pre ++ b ++ post) ++ [0]) 0 =? 109) = negb (len pre =? 0)).
  { destruct Hp as [[-> H]|[c ->]]; [|reflexivity]. cbn [app].
    rewrite len_nil. change (negb (0 =? 0)) with false. apply Z.eqb_neq.
    destruct (b ++ post); [discriminate|exact H]. }
  rewrite M.
  assert (O : (if negb (len pre =? 0) then 2 else 0) = len pre) by (destruct Hp as [[-> H]|[c ->]]; reflexivity).
  rewrite O.
  assert (N : u64 (len (pre ++ b ++ post) - len pre) = len (b ++ post)).
  { rewrite len_app in *. rewrite u64_id; [lia|]. pose proof (len_nonneg _ pre). pose proof (len_nonneg _ (b ++ post)). lia. }
  rewrite N.
  assert (NE : pre ++ b ++ post <> []).
  { destruct Hs as [->|[-> [H _]]]; [|rewrite app_nil_r; exact H].
    intros E. apply app_eq_nil in E as [_ E]. apply app_eq_nil in E as [_ E]. discriminate. }
  assert (A : aget ((pre ++ b ++ post) ++ [0]) (u64 (len pre + len (b ++ post) - 1)) = Ok (last (pre ++ b ++ post) 0)).
  { rewrite <- len_app, u64_id.
    - apply last_aget. exact NE.
    - destruct (pre ++ b ++ post) as [|y t] eqn:E; [congruence|]. rewrite len_cons in *. pose proof (len_nonneg _ t). lia. }
  rewrite A. cbn [bind].
  assert (K : skipn (Z.to_nat (len pre)) ((pre ++ b ++ post) ++ [0]) = b ++ post ++ [0]).
  { rewrite <- !app_assoc. apply skipn_app_len. unfold len. lia. }
  rewrite K.
  assert (B : (if last (pre ++ b ++ post) 0 =? 47 then u64 (len (b ++ post) - 1) else len (b ++ post)) = len b).
  { pose proof (len_nonneg _ b). rewrite !len_app in L. pose proof (len_nonneg _ pre). pose proof (len_nonneg _ post).
    destruct Hs as [->|[-> [_ Q1]]].
    - rewrite app_assoc, last_last. change (47 =? 47) with true. cbv iota. rewrite len_app, len_cons, len_nil in *.
      rewrite u64_id; lia.
    - rewrite app_nil_r. destruct (Z.eqb_spec (last (pre ++ b) 0) 47); [contradiction|reflexivity]. }
  rewrite B. reflexivity.
Qed.
Lemma shapes : forall path, path = [] \/ path = [109] \/ path = [109; 47] \/
  exists pre b post, path = pre ++ b ++ post /\ shaped pre b post.
Proof.
  assert (T : forall l : list Z, exists b post, l = b ++ post /\ (post = [47] \/ post = [] /\ last b 0 <> 47)).
  { intros l. destruct l as [|x l']; [exists [], []; split; [reflexivity|right; split; [reflexivity|discriminate]]|].
    destruct (exists_last (l := x :: l') ltac:(discriminate)) as [l'' [y ->]].
    destruct (Z.eq_dec y 47) as [->|N].
    - exists l'', [47]. auto.
    - exists (l'' ++ [y]), []. rewrite app_nil_r, last_last. auto. }
  intros path. destruct path as [|x path]; [now left|].
  destruct (Z.eq_dec x 109) as [->|N].
  - destruct path as [|c path]; [tauto|].
    destruct (T path) as [b [post [-> H]]]. destruct b as [|b0 b].
    + destruct H as [->|[-> _]].
      * right; right; right. exists [109; c], [], [47]. split; [reflexivity|]. split; [right; eauto|now left].
      * destruct (Z.eq_dec c 47) as [->|N]; [tauto|]. right; right; right. exists [109; c], [], [].
        split; [reflexivity|]. split; [right; eauto|]. right. split; [reflexivity|]. split; [discriminate|exact N].
    + right; right; right. exists [109; c], (b0 :: b), post. split; [reflexivity|]. split; [right; eauto|].
      destruct H as [->|[-> H]]; [now left|right]. split; [reflexivity|]. split; [discriminate|].
      cbn [app last]. exact H.
  - right; right; right. destruct (T (x :: path)) as [b [post [E H]]]. exists [], b, post. split; [exact E|].
    split; [left; split; [reflexivity|]; rewrite <- E; exact N|].
    destruct H as [->|[-> H]]; [now left|right]. split; [reflexivity|]. cbn [app]. split; [|exact H].
    intros ->. discriminate.
Qed.

(** Facts about the alphabets. *)
Lemma strchr_in : forall valid c, strchr valid c <> None <-> In c (valid ++ [0]).
Proof.
  intros valid c. unfold strchr. split.
  - intros H. destruct (index_of c (valid ++ [0])) eqn:E; [|congruence].
    apply index_of_some in E as [A <-]. apply nth_In. unfold len in A. lia.
  - intros H E. apply index_of_none in E. contradiction.
Qed.
Lemma digit_code : forall d, 0 <= d <= 9 -> strchr valid_prv (48 + d) = Some d /\ strchr valid_pub (48 + d) = Some d.
Proof.
  intros d H. assert (S : forallb (fun d => match strchr valid_prv (48 + d), strchr valid_pub (48 + d) with
    | Some x, Some y => (x =? d) && (y =? d) | _, _ => false end) (zrange 10) = true) by reflexivity.
  pose proof (zrange_sweep _ _ S d ltac:(lia)) as E. cbv beta in E.
  destruct (strchr valid_prv (48 + d)), (strchr valid_pub (48 + d)); try discriminate.
  apply andb_prop in E as [A B]. apply Z.eqb_eq in A, B. subst. auto.
Qed.
Lemma prv_code : forall c i, strchr valid_prv c = Some i -> c <> 0 -> c <> 47 ->
  (0 <= i <= 9 /\ c = 48 + i) \/ (10 <= i /\ (c = 39 \/ c = 104)).
Proof.
  intros c i H N0 N1. unfold strchr in H. apply index_of_some in H as [R E]. change (len (valid_prv ++ [0])) with 14 in R.
  assert (C : i = 0 \/ i = 1 \/ i = 2 \/ i = 3 \/ i = 4 \/ i = 5 \/ i = 6 \/ i = 7 \/ i = 8 \/ i = 9 \/ i = 10 \/ i = 11 \/ i = 12 \/ i = 13) by lia.
  repeat (destruct C as [->|C]; [vm_compute in E; subst c; lia|]). subst i. vm_compute in E. lia.
Qed.
Lemma pub_code : forall c i, strchr valid_pub c = Some i -> c <> 0 -> c <> 47 -> 0 <= i <= 9 /\ c = 48 + i.
Proof.
  intros c i H N0 N1. unfold strchr in H. apply index_of_some in H as [R E]. change (len (valid_pub ++ [0])) with 12 in R.
  assert (C : i = 0 \/ i = 1 \/ i = 2 \/ i = 3 \/ i = 4 \/ i = 5 \/ i = 6 \/ i = 7 \/ i = 8 \/ i = 9 \/ i = 10 \/ i = 11) by lia.
  repeat (destruct C as [->|C]; [vm_compute in E; subst c; lia|]). subst i. vm_compute in E. lia.
Qed.

(** The filling loops on the body alone. *)
Definition code (valid : list Z) (c : Z) : Z := match strchr valid c with Some i => i | None => 0 end.
Fixpoint fillb (b : list Z) (v : Z) : option (list Z) :=
  match b with
  | [] => Some [v]
  | c :: t =>
      if c =? 47 then option_map (cons v) (fillb t 0)
      else if HARDENED_INDEX <=? v then None
      else let i := code valid_prv c in fillb t (u32 (if i <? 10 then v * 10 + i else v + HARDENED_INDEX))
  end.
Fixpoint fillp (b : list Z) (v : Z) : option (list Z) :=
  match b with
  | [] => Some [v]
  | c :: t =>
      if c =? 47 then if HARDENED_INDEX <=? v then None else option_map (cons v) (fillp t 0)
      else fillp t (u32 (v * 10 + code valid_pub c))
  end.
Lemma fill_spec : forall b v done t, Forall (known valid_prv) b ->
  path_fill valid_prv (b ++ t) (len b) (len done) (done ++ v :: zeros (slashes b)) =
  Ok (option_map (app done) (fillb b v)).
Proof.
  induction b as [|c b IH]; intros v done t H.
  - cbn [app slashes count_occ zeros repeat fillb option_map]. destruct t; reflexivity.
  - cbn [app path_fill fillb]. rewrite len_cons. destruct (Z.leb_spec (1 + len b) 0) as [E|_]; [pose proof (len_nonneg _ b); lia|].
    replace (1 + len b - 1) with (len b) by lia. unfold slashes.
    destruct (Z.eqb_spec c 47) as [->|N].
    + rewrite count_occ_cons_eq by reflexivity. fold (slashes b).
      change (zeros (S (slashes b))) with (0 :: zeros (slashes b)).
      replace (len done + 1) with (len (done ++ [v])) by (rewrite len_app, len_cons, len_nil; lia).
      replace (done ++ v :: 0 :: zeros (slashes b)) with ((done ++ [v]) ++ 0 :: zeros (slashes b)) by (rewrite <- app_assoc; reflexivity).
      rewrite IH by apply (Forall_inv_tail H).
      destruct (fillb b 0) as [l|]; cbn [option_map]; [|reflexivity]. rewrite <- app_assoc. reflexivity.
    + rewrite count_occ_cons_neq by auto. fold (slashes b). unfold code.
      destruct (strchr valid_prv c) eqn:S; [|exfalso; apply (Forall_inv H S)].
      rewrite aget_mid. cbn [bind]. destruct (HARDENED_INDEX <=? v); [reflexivity|].
      unfold aset. destruct (Z.leb_spec 0 (len done)) as [_|E]; [|pose proof (len_nonneg _ done); lia].
      destruct (Z.ltb_spec (len done) (len (done ++ v :: zeros (slashes b)))) as [_|E].
      2: { rewrite len_app, len_cons in E. pose proof (len_nonneg _ (zeros (slashes b))). lia. }
      cbn [andb bind]. replace (Z.to_nat (len done)) with (length done) by (unfold len; lia). rewrite set_nth_app_mid. apply IH. apply (Forall_inv_tail H).
Qed.
Lemma fillp_spec : forall b v done t, Forall (known valid_pub) b ->
  path_fill_pub valid_pub (b ++ t) (len b) (len done) (done ++ v :: zeros (slashes b)) =
  Ok (option_map (app done) (fillp b v)).
Proof.
  induction b as [|c b IH]; intros v done t H.
  - cbn [app slashes count_occ zeros repeat fillp option_map]. destruct t; reflexivity.
  - cbn [app path_fill_pub fillp]. rewrite len_cons. destruct (Z.leb_spec (1 + len b) 0) as [E|_]; [pose proof (len_nonneg _ b); lia|].
    replace (1 + len b - 1) with (len b) by lia. unfold slashes.
    destruct (Z.eqb_spec c 47) as [->|N].
    + rewrite count_occ_cons_eq by reflexivity. fold (slashes b).
      change (zeros (S (slashes b))) with (0 :: zeros (slashes b)).
      rewrite aget_mid. cbn [bind]. destruct (HARDENED_INDEX <=? v); [reflexivity|].
      replace (len done + 1) with (len (done ++ [v])) by (rewrite len_app, len_cons, len_nil; lia).
      replace (done ++ v :: 0 :: zeros (slashes b)) with ((done ++ [v]) ++ 0 :: zeros (slashes b)) by (rewrite <- app_assoc; reflexivity).
      rewrite IH by apply (Forall_inv_tail H).
      destruct (fillp b 0) as [l|]; cbn [option_map]; [|reflexivity]. rewrite <- app_assoc. reflexivity.
    + rewrite count_occ_cons_neq by auto. fold (slashes b). unfold code.
      destruct (strchr valid_pub c) eqn:S; [|exfalso; apply (Forall_inv H S)].
      rewrite aget_mid. cbn [bind].
      unfold aset. destruct (Z.leb_spec 0 (len done)) as [_|E]; [|pose proof (len_nonneg _ done); lia].
      destruct (Z.ltb_spec (len done) (len (done ++ v :: zeros (slashes b)))) as [_|E].
      2: { rewrite len_app, len_cons in E. pose proof (len_nonneg _ (zeros (slashes b))). lia. }
      cbn [andb bind]. replace (Z.to_nat (len done)) with (length done) by (unfold len; lia). rewrite set_nth_app_mid. apply IH. apply (Forall_inv_tail H).
Qed.
Lemma prv_shaped : forall pre b post, shaped pre b post -> len (pre ++ b ++ post) < 2^63 -> Forall (known valid_prv) b ->
  prv_path (pre ++ b ++ post) = Ok (fillb b 0).
Proof.
  intros pre b post Hs L K. unfold prv_path. rewrite (parse_shaped _ _ _ _ _ Hs L), scan_all by exact K. cbn [bind].
  replace (Z.to_nat (1 + Z.of_nat (slashes b))) with (S (slashes b)) by lia.
  pose proof (fill_spec b 0 [] (post ++ [0]) K) as E. cbn [app] in E. change (len (@nil Z)) with 0 in E.
  change (zeros (S (slashes b))) with (0 :: zeros (slashes b)). rewrite E. destruct (fillb b 0); reflexivity.
Qed.
Lemma pub_shaped : forall pre b post, shaped pre b post -> len (pre ++ b ++ post) < 2^63 -> Forall (known valid_pub) b ->
  pub_path (pre ++ b ++ post) = Ok (fillp b 0).
Proof.
  intros pre b post Hs L K. unfold pub_path. rewrite (parse_shaped _ _ _ _ _ Hs L), scan_all by exact K. cbn [bind].
  replace (Z.to_nat (1 + Z.of_nat (slashes b))) with (S (slashes b)) by lia.
  pose proof (fillp_spec b 0 [] (post ++ [0]) K) as E. cbn [app] in E. change (len (@nil Z)) with 0 in E.
  change (zeros (S (slashes b))) with (0 :: zeros (slashes b)). rewrite E. destruct (fillp b 0); reflexivity.
Qed.
Lemma refuse_shaped : forall valid fill pre b post, shaped pre b post -> len (pre ++ b ++ post) < 2^63 ->
  Exists (fun c => strchr valid c = None) b -> path_parse valid fill (pre ++ b ++ post) = Ok None.
Proof.
  intros valid fill pre b post Hs L K. rewrite (parse_shaped _ _ _ _ _ Hs L), scan_none by exact K. reflexivity.
Qed.

(** * No path but three reads outside the string *)
Lemma prv_ub : forall path, len path < 2^63 -> prv_path path = UB <-> path = [] \/ path = chars "m" \/ path = chars "m/".
Proof.
  intros path L. split.
  - intros H. destruct (shapes path) as [->|[->|[->|[pre [b [post [-> Hs]]]]]]]; auto. exfalso.
    destruct (known_dec valid_prv b) as [K|K].
    + rewrite (prv_shaped _ _ _ Hs L K) in H. discriminate.
    + unfold prv_path in H. rewrite (refuse_shaped _ _ _ _ _ Hs L K) in H. discriminate.
  - intros [->|[->| ->]]; vm_compute; reflexivity.
Qed.
Lemma pub_ub : forall path, len path < 2^63 -> pub_path path = UB <-> path = [] \/ path = chars "m" \/ path = chars "m/".
Proof.
  intros path L. split.
  - intros H. destruct (shapes path) as [->|[->|[->|[pre [b [post [-> Hs]]]]]]]; auto. exfalso.
    destruct (known_dec valid_pub b) as [K|K].
    + rewrite (pub_shaped _ _ _ Hs L K) in H. discriminate.
    + unfold pub_path in H. rewrite (refuse_shaped _ _ _ _ _ Hs L K) in H. discriminate.
  - intros [->|[->| ->]]; vm_compute; reflexivity.
Qed.

(** * Components *)
Lemma be_acc_mono : forall ds v, Forall (fun d => 0 <= d <= 9) ds -> 0 <= v -> v <= be_acc 10 v ds.
Proof.
  induction ds as [|d ds IH]; intros v H P; [cbn; lia|].
  pose proof (Forall_inv H) as Hd; cbv beta in Hd. cbn [be_acc]. specialize (IH (v * 10 + d) (Forall_inv_tail H)). lia.
Qed.
Lemma fillb_digits : forall ds v b, Forall (fun d => 0 <= d <= 9) ds -> 0 <= v -> be_acc 10 v ds < 2^31 ->
  fillb (map (fun d => 48 + d) ds ++ b) v = fillb b (be_acc 10 v ds).
Proof.
  induction ds as [|d ds IH]; intros v b H P L; [reflexivity|].
  pose proof (Forall_inv H) as Hd; cbv beta in Hd. cbn [map app fillb be_acc] in *.
  pose proof (be_acc_mono ds (v * 10 + d) (Forall_inv_tail H) ltac:(lia)).
  destruct (Z.eqb_spec (48 + d) 47); [lia|]. unfold HARDENED_INDEX at 1. destruct (Z.leb_spec 0x80000000 v); [lia|].
  unfold code. destruct (digit_code d Hd) as [-> _]. destruct (Z.ltb_spec d 10); [|lia].
  rewrite u32_id by lia. apply IH; [apply (Forall_inv_tail H)|lia|lia].
Qed.
Lemma fillb_mark : forall v m b, 0 <= v < 2^31 -> m = 39 \/ m = 104 -> fillb (m :: b) v = fillb b (v + 2^31).
Proof.
  intros v m b H M. cbn [fillb]. unfold HARDENED_INDEX. destruct (Z.leb_spec 0x80000000 v); [lia|].
  destruct M as [->| ->].
  - change (39 =? 47) with false. cbv iota. change (code valid_prv 39) with 11. change (11 <? 10) with false. cbv iota.
    rewrite u32_id by lia. reflexivity.
  - change (104 =? 47) with false. cbv iota. change (code valid_prv 104) with 12. change (12 <? 10) with false. cbv iota.
    rewrite u32_id by lia. reflexivity.
Qed.
Lemma fillb_component : forall c b, component_ok c -> component_value c < 2^31 ->
  fillb (component_text c ++ b) 0 = fillb b (child_number c).
Proof.
  intros [ds m] b [Hd Hm] L. unfold component_text, child_number, component_value, component_hardened in *. cbn [fst snd] in *.
  rewrite <- app_assoc, fillb_digits; auto; [|lia].
  change (be_acc 10 0 ds) with (be_val 10 ds).
  pose proof (be_acc_mono ds 0 Hd ltac:(lia)). change (be_acc 10 0 ds) with (be_val 10 ds) in H.
  destruct m as [m|]; [|cbn [app]; rewrite Z.add_0_r; reflexivity].
  cbn [app]. apply fillb_mark; [lia|]. destruct Hm as [E|[E|E]]; inversion E; auto.
Qed.
Lemma join_cons : forall x l, l <> [] -> join (x :: l) = x ++ 47 :: join l.
Proof. intros x [|y l] H; [congruence|reflexivity]. Qed.
Lemma fillb_body : forall cs, cs <> [] -> Forall component_ok cs -> Forall (fun c => component_value c < 2^31) cs ->
  fillb (path_body cs) 0 = Some (map child_number cs).
Proof.
  induction cs as [|c cs IH]; [congruence|intros _ H L]. unfold path_body. cbn [map].
  destruct cs as [|c' cs].
  - cbn [map join]. rewrite <- (app_nil_r (component_text c)), fillb_component; [reflexivity|apply (Forall_inv H)|apply (Forall_inv L)].
  - rewrite join_cons by discriminate. rewrite fillb_component; [|apply (Forall_inv H)|apply (Forall_inv L)].
    cbn [fillb]. change (47 =? 47) with true. cbv iota.
    fold (path_body (c' :: cs)). rewrite IH; [reflexivity|discriminate|apply (Forall_inv_tail H)|apply (Forall_inv_tail L)].
Qed.
Lemma component_chars : forall c, component_ok c ->
  Forall (fun x => known valid_prv x /\ x <> 47 /\ x <> 109 /\ x <> 0) (component_text c).
Proof.
  intros [ds m] [Hd Hm]. cbn [fst snd] in *. unfold component_text. cbn [fst snd]. apply Forall_app. split.
  - apply Forall_forall. intros x I. apply in_map_iff in I as [d [<- I]].
    rewrite Forall_forall in Hd. specialize (Hd d I). destruct (digit_code d Hd) as [E _].
    unfold known. rewrite E. repeat split; [discriminate|lia|lia|lia].
  - destruct Hm as [->|[->| ->]]; repeat constructor; try discriminate; vm_compute; discriminate.
Qed.
Lemma body_chars : forall cs, Forall component_ok cs -> Forall (fun x => known valid_prv x /\ x <> 109 /\ x <> 0) (path_body cs).
Proof.
  induction cs as [|c cs IH]; intros H; [constructor|]. unfold path_body. cbn [map].
  assert (C : Forall (fun x => known valid_prv x /\ x <> 109 /\ x <> 0) (component_text c)).
  { eapply Forall_impl; [|apply (component_chars c (Forall_inv H))]. cbv beta. tauto. }
  destruct cs as [|c' cs]; [exact C|]. rewrite join_cons by discriminate. apply Forall_app. split; [exact C|].
  constructor; [split; [|lia]; vm_compute; discriminate|]. apply IH. apply (Forall_inv_tail H).
Qed.
Lemma hd_forall : forall (P : Z -> Prop) l d, P d -> Forall P l -> P (hd d l).
Proof. intros P [|x l] d H F; [exact H|exact (Forall_inv F)]. Qed.
Lemma last_forall : forall (P : Z -> Prop) l d, P d -> Forall P l -> P (last l d).
Proof.
  intros P l d H F. induction l as [|x l IH]; [exact H|]. destruct l; [exact (Forall_inv F)|].
  apply IH. apply (Forall_inv_tail F).
Qed.
Lemma component_nonnil : forall c, fst c <> [] -> component_text c <> [].
Proof. intros [ds m] H E. cbn [fst] in H. unfold component_text in E. destruct ds; [congruence|discriminate]. Qed.
(** The last character of a body with non-empty components is not a slash. *)
Lemma last_app_ne : forall (a b : list Z) d, b <> [] -> last (a ++ b) d = last b d.
Proof.
  induction a as [|x a IH]; intros b d H; [reflexivity|]. cbn [app last]. destruct (a ++ b) eqn:E.
  - apply app_eq_nil in E as [_ ->]. congruence.
  - rewrite <- E. apply IH, H.
Qed.
Lemma body_last : forall cs, cs <> [] -> Forall component_ok cs -> Forall (fun c => fst c <> []) cs ->
  path_body cs <> [] /\ last (path_body cs) 0 <> 47.
Proof.
  induction cs as [|c cs IH]; [congruence|intros _ H N]. unfold path_body. cbn [map].
  pose proof (component_nonnil c (Forall_inv N)) as NE.
  destruct cs as [|c' cs].
  - cbn [map join]. split; [exact NE|].
    apply (last_forall (fun x => x <> 47)); [lia|]. eapply Forall_impl; [|apply (component_chars c (Forall_inv H))]. cbv beta. tauto.
  - rewrite join_cons by discriminate. fold (path_body (c' :: cs)).
    destruct (IH ltac:(discriminate) (Forall_inv_tail H) (Forall_inv_tail N)) as [A B]. split.
    + destruct (component_text c); discriminate.
    + rewrite last_app_ne by discriminate. change (47 :: path_body (c' :: cs)) with ([47] ++ path_body (c' :: cs)).
      rewrite last_app_ne by exact A. exact B.
Qed.
Lemma body_shaped : forall pre cs post, path_prefix pre -> path_suffix post -> cs <> [] -> Forall component_good cs ->
  shaped pre (path_body cs) post.
Proof.
  intros pre cs post Hp Hs N G.
  assert (O : Forall component_ok cs) by (eapply Forall_impl; [|exact G]; unfold component_good; tauto).
  assert (E : Forall (fun c => fst c <> []) cs) by (eapply Forall_impl; [|exact G]; unfold component_good; tauto).
  destruct (body_last cs N O E) as [A B]. split.
  - destruct Hp as [->| ->]; [left|right; exists 47; reflexivity]. split; [reflexivity|].
    destruct (path_body cs) as [|x t] eqn:P; [congruence|]. cbn [app hd].
    pose proof (body_chars cs O) as C. rewrite P in C. apply Forall_inv in C. tauto.
  - destruct Hs as [->| ->]; [right|left; reflexivity]. split; [reflexivity|].
    rewrite last_app_ne by exact A. split; [|exact B]. intros X. apply app_eq_nil in X as [_ X]. contradiction.
Qed.
Lemma prv_path_good : forall pre cs post, path_prefix pre -> path_suffix post -> cs <> [] -> Forall component_good cs ->
  len (pre ++ path_body cs ++ post) < 2^63 ->
  prv_path (pre ++ path_body cs ++ post) = Ok (Some (map child_number cs)).
Proof.
  intros pre cs post Hp Hs N G L.
  assert (O : Forall component_ok cs) by (eapply Forall_impl; [|exact G]; unfold component_good; tauto).
  rewrite prv_shaped; auto.
  - rewrite fillb_body; auto. eapply Forall_impl; [|exact G]; unfold component_good; tauto.
  - apply body_shaped; auto.
  - eapply Forall_impl; [|apply body_chars, O]. cbv beta. tauto.
Qed.

(** * Soundness *)
Definition body_rest (cs : list component) : list Z := match cs with [] => [] | _ => 47 :: path_body cs end.
Lemma body_cons : forall c cs, path_body (c :: cs) = component_text c ++ body_rest cs.
Proof.
  intros c [|c' cs]; unfold path_body, body_rest; cbn [map]; [cbn [join]; rewrite app_nil_r; reflexivity|].
  rewrite join_cons by discriminate. reflexivity.
Qed.
Lemma fillb_sound : forall n b v ds, (length b <= n)%nat -> 0 <= v < 2^32 -> Forall (fun c => known valid_prv c /\ c <> 0) b ->
  fillb b v = Some ds ->
  exists dg m cs, component_ok (dg, m) /\ Forall component_ok cs /\ b = component_text (dg, m) ++ body_rest cs /\
    ds = (be_acc 10 v dg mod 2^32 + match m with Some _ => 2^31 | None => 0 end) :: map child_mod cs.
Proof.
  induction n as [|n IH]; intros b v ds Ln V K H.
  { destruct b; [|cbn in Ln; lia]. cbn [fillb] in H. injection H as <-. exists [], None, [].
    split; [split; [constructor|now left]|]. split; [constructor|]. split; [reflexivity|].
    cbn [be_acc map]. rewrite (Z.mod_small v) by exact V. rewrite Z.add_0_r. reflexivity. }
  destruct b as [|c b].
  { apply (IH [] v ds); auto. cbn. lia. }
  cbn [fillb length] in *. apply le_S_n in Ln. pose proof (Forall_inv K) as [Kc N0]. apply Forall_inv_tail in K.
  destruct (Z.eqb_spec c 47) as [->|N].
  - destruct (fillb b 0) as [ds'|] eqn:E; [|discriminate]. injection H as <-.
    destruct (IH b 0 ds' Ln ltac:(lia) K E) as (dg & m & cs & O & F & -> & ->).
    exists [], None, ((dg, m) :: cs). split; [split; [constructor|now left]|]. split; [constructor; auto|].
    split; [unfold body_rest; rewrite body_cons; reflexivity|].
    cbn [be_acc map]. rewrite (Z.mod_small v) by exact V. rewrite Z.add_0_r. destruct m; reflexivity.
  - destruct (Z.leb_spec HARDENED_INDEX v) as [|Lv]; [discriminate|]. unfold HARDENED_INDEX in Lv.
    unfold code in H. destruct (strchr valid_prv c) as [i|] eqn:S; [|contradiction].
    destruct (prv_code c i S N0 N) as [[R ->]|[R M]].
    + destruct (Z.ltb_spec i 10); [|lia].
      destruct (IH b _ ds Ln (u32_range _) K H) as (dg & m & cs & O & F & -> & ->).
      exists (i :: dg), m, cs. split; [split; [constructor; [exact R|apply O]|apply O]|]. split; [exact F|].
      split; [reflexivity|]. do 2 f_equal. cbn [be_acc]. rewrite (be_acc_val 10 dg (u32 _)), (be_acc_val 10 dg (v * 10 + i)).
      unfold u32. rewrite <- (Z.add_mod_idemp_l (_ * _)), Z.mul_mod_idemp_l, Z.add_mod_idemp_l by lia. reflexivity.
    + destruct (Z.ltb_spec i 10); [lia|]. rewrite u32_id in H by (unfold HARDENED_INDEX; lia). unfold HARDENED_INDEX in H.
      assert (Mk : mark_ok (Some c)) by (unfold mark_ok; destruct M as [->| ->]; auto).
      destruct b as [|c2 b].
      * cbn [fillb] in H. injection H as <-. exists [], (Some c), [].
        split; [split; [constructor|exact Mk]|]. split; [constructor|]. split; [reflexivity|].
        cbn [be_acc map]. rewrite (Z.mod_small v) by exact V. reflexivity.
      * cbn [fillb] in H. destruct (Z.eqb_spec c2 47) as [->|N2].
        2: { destruct (Z.leb_spec HARDENED_INDEX (v + 0x80000000)) as [|X]; [discriminate|unfold HARDENED_INDEX in X; lia]. }
        destruct (fillb b 0) as [ds'|] eqn:E; [|discriminate]. injection H as <-.
        destruct (IH b 0 ds' ltac:(cbn in Ln; lia) ltac:(lia) (Forall_inv_tail K) E) as (dg & m & cs & O & F & -> & ->).
        exists [], (Some c), ((dg, m) :: cs). split; [split; [constructor|exact Mk]|]. split; [constructor; auto|].
        split; [unfold body_rest; rewrite body_cons; reflexivity|].
        cbn [be_acc map]. rewrite (Z.mod_small v) by exact V. destruct m; reflexivity.
Qed.
Lemma prv_path_sound : forall path l, c_string path -> len path < 2^63 -> prv_path path = Ok (Some l) ->
  exists pre cs post, path = pre ++ path_body cs ++ post /\ (pre = [] \/ exists c, pre = [109; c]) /\ path_suffix post /\
    cs <> [] /\ Forall component_ok cs /\ l = map child_mod cs.
Proof.
  intros path l C L H. destruct (shapes path) as [->|[->|[->|[pre [b [post [-> Hs]]]]]]]; [vm_compute in H; discriminate..|].
  destruct (known_dec valid_prv b) as [K|K].
  2: { unfold prv_path in H. rewrite (refuse_shaped _ _ _ _ _ Hs L K) in H. discriminate. }
  rewrite (prv_shaped _ _ _ Hs L K) in H. apply (f_equal (fun x => match x with Ok y => y | UB => None end)) in H. cbv beta iota in H.
  assert (K2 : Forall (fun c => known valid_prv c /\ c <> 0) b).
  { unfold c_string in C. rewrite !Forall_app in C. destruct C as [_ [C _]]. rewrite Forall_forall in *. auto. }
  destruct (fillb_sound _ b 0 l (Nat.le_refl _) ltac:(lia) K2 H) as (dg & m & cs & O & F & -> & ->).
  exists pre, ((dg, m) :: cs), post. rewrite body_cons. split; [reflexivity|].
  destruct Hs as [Hp Hq]. split; [destruct Hp as [[-> _]|Hp]; auto|].
  split; [destruct Hq as [->|[-> _]]; [right|left]; reflexivity|].
  split; [discriminate|]. split; [constructor; assumption|]. cbn [map]. destruct m; reflexivity.
Qed.

(** A body with a character that is not allowed. *)
Lemma path_refuse : forall valid fill pre body c, In 47 valid -> pre = [] /\ hd 0 body <> 109 \/ pre = chars "m/" ->
  In c body -> ~ In c (valid ++ [0]) -> len (pre ++ body) < 2^63 -> path_parse valid fill (pre ++ body) = Ok None.
Proof.
  intros valid fill pre body c V47 Hp I N L.
  assert (E : exists b post, body = b ++ post /\ (post = [47] \/ post = [] /\ last b 0 <> 47)).
  { destruct body as [|x l']; [exists [], []; split; [reflexivity|right; split; [reflexivity|discriminate]]|].
    destruct (exists_last (l := x :: l') ltac:(discriminate)) as [l'' [y Ey]]. rewrite Ey in *.
    destruct (Z.eq_dec y 47) as [->|Ny]; [exists l'', [47]; auto|].
    exists (l'' ++ [y]), []. rewrite app_nil_r, last_last. auto. }
  destruct E as [b [post [-> Hq]]]. apply refuse_shaped; [|exact L|].
  - split; [destruct Hp as [[-> Hp]| ->]; [left; split; [reflexivity|exact Hp]|right; exists 47; reflexivity]|].
    destruct Hq as [->|[-> Hq]]; [now left|right]. rewrite app_nil_r in I.
    assert (NB : b <> []) by (intros ->; destruct I). split; [reflexivity|].
    rewrite last_app_ne by exact NB. split; [|exact Hq]. intros X. apply app_eq_nil in X as [_ X]. contradiction.
  - apply Exists_exists. exists c. split.
    + apply in_app_or in I as [I|I]; [exact I|]. exfalso. destruct Hq as [->|[-> _]]; [|destruct I].
      destruct I as [<-|[]]. apply N, in_or_app. now left.
    + destruct (strchr valid c) eqn:S; [|reflexivity]. exfalso. apply N, strchr_in. congruence.
Qed.

(** Ten digits. *)
Lemma ten_digits : forall ds, Forall (fun d => 0 <= d <= 9) ds -> length ds = 10%nat ->
  prv_path (map (fun d => 48 + d) ds) = Ok (Some [be_val 10 ds mod 2^32]).
Proof.
  intros ds H L10. destruct (exists_last (l := ds) ltac:(intros ->; discriminate)) as [ds' [d ->]].
  rewrite app_length in L10. cbn in L10. apply Forall_app in H as [H Hd]. apply Forall_inv in Hd.
  assert (K : Forall (fun x => known valid_prv x /\ x <> 109 /\ x <> 47) (map (fun d => 48 + d) (ds' ++ [d]))).
  { apply Forall_forall. intros x I. apply in_map_iff in I as [y [<- I]].
    assert (Y : 0 <= y <= 9) by (apply in_app_or in I as [I|[<-|[]]]; [rewrite Forall_forall in H; auto|exact Hd]).
    destruct (digit_code y Y) as [E _]. unfold known. rewrite E. split; [discriminate|lia]. }
  set (b := map (fun d => 48 + d) (ds' ++ [d])) in *.
  assert (NB : b <> []) by (unfold b; rewrite map_app; destruct (map (fun d => 48 + d) ds'); discriminate).
  assert (LB : len b < 2^63) by (unfold b; rewrite len_map, len_app, len_cons, len_nil; unfold len; lia).
  change b with ([] ++ b) at 1. rewrite <- (app_nil_r b) at 1.
  rewrite prv_shaped.
  - unfold b. rewrite map_app. change (map (fun d => 48 + d) [d]) with [48 + d].
    pose proof (be_val_bound 10 ds' ltac:(lia)) as B.
    assert (D : digits_ok 10 ds') by (eapply Forall_impl; [|exact H]; cbv beta; intros; lia).
    specialize (B D). replace (len ds') with 9 in B by (unfold len; lia).
    rewrite fillb_digits; [|exact H|lia|change (be_acc 10 0 ds') with (be_val 10 ds'); lia].
    change (be_acc 10 0 ds') with (be_val 10 ds').
    cbn [fillb]. destruct (Z.eqb_spec (48 + d) 47); [lia|].
    destruct (Z.leb_spec HARDENED_INDEX (be_val 10 ds')) as [X|_]; [unfold HARDENED_INDEX in X; lia|].
    unfold code. destruct (digit_code d Hd) as [-> _]. destruct (Z.ltb_spec d 10); [|lia].
    rewrite be_val_snoc. reflexivity.
  - split; [left; split; [reflexivity|]|right; split; [reflexivity|split; [exact NB|]]].
    + rewrite app_nil_r. apply (hd_forall (fun x => x <> 109)); [lia|]. eapply Forall_impl; [|exact K]; cbv beta; tauto.
    + apply (last_forall (fun x => x <> 47)); [lia|]. eapply Forall_impl; [|exact K]; cbv beta; tauto.
  - rewrite app_nil_r. exact LB.
  - eapply Forall_impl; [|exact K]; cbv beta; tauto.
Qed.
(** The public version: one component of any size. *)
Lemma fillp_digits : forall ds v, Forall (fun d => 0 <= d <= 9) ds -> 0 <= v < 2^32 ->
  fillp (map (fun d => 48 + d) ds) v = Some [be_acc 10 v ds mod 2^32].
Proof.
  induction ds as [|d ds IH]; intros v H V; [cbn [map fillp be_acc]; rewrite Z.mod_small by exact V; reflexivity|].
  pose proof (Forall_inv H) as Hd; cbv beta in Hd. cbn [map fillp be_acc].
  destruct (Z.eqb_spec (48 + d) 47); [lia|]. unfold code. destruct (digit_code d Hd) as [_ ->].
  rewrite IH; [|apply (Forall_inv_tail H)|apply u32_range]. do 2 f_equal.
  rewrite (be_acc_val 10 ds (u32 _)), (be_acc_val 10 ds (v * 10 + d)).
  unfold u32. rewrite <- (Z.add_mod_idemp_l (_ * _)), Z.mul_mod_idemp_l, Z.add_mod_idemp_l by lia. reflexivity.
Qed.
Lemma pub_digits : forall ds, Forall (fun d => 0 <= d <= 9) ds -> ds <> [] -> len ds < 2^63 ->
  pub_path (map (fun d => 48 + d) ds) = Ok (Some [be_val 10 ds mod 2^32]).
Proof.
  intros ds H NE L.
  assert (K : Forall (fun x => known valid_pub x /\ x <> 109 /\ x <> 47) (map (fun d => 48 + d) ds)).
  { apply Forall_forall. intros x I. apply in_map_iff in I as [y [<- I]]. rewrite Forall_forall in H. specialize (H y I).
    destruct (digit_code y H) as [_ E]. unfold known. rewrite E. split; [discriminate|lia]. }
  rewrite <- (app_nil_r (map _ ds)). change (map (fun d => 48 + d) ds ++ []) with ([] ++ map (fun d => 48 + d) ds ++ []).
  rewrite pub_shaped.
  - rewrite fillp_digits; [reflexivity|exact H|lia].
  - split; [left; split; [reflexivity|]|right; split; [reflexivity|split]].
    + rewrite app_nil_r. apply (hd_forall (fun x => x <> 109)); [lia|]. eapply Forall_impl; [|exact K]; cbv beta; tauto.
    + destruct ds; [congruence|discriminate].
    + apply (last_forall (fun x => x <> 47)); [lia|]. eapply Forall_impl; [|exact K]; cbv beta; tauto.
  - rewrite app_nil_r. cbn [app]. rewrite len_map. exact L.
  - eapply Forall_impl; [|exact K]; cbv beta; tauto.
Qed.

(** Public paths with components in range. *)
Lemma fillp_component : forall ds v b, Forall (fun d => 0 <= d <= 9) ds -> 0 <= v -> be_acc 10 v ds < 2^31 ->
  fillp (map (fun d => 48 + d) ds ++ b) v = fillp b (be_acc 10 v ds).
Proof.
  induction ds as [|d ds IH]; intros v b H P L; [reflexivity|].
  pose proof (Forall_inv H) as Hd; cbv beta in Hd. cbn [map app fillp be_acc] in *.
  pose proof (be_acc_mono ds (v * 10 + d) (Forall_inv_tail H) ltac:(lia)).
  destruct (Z.eqb_spec (48 + d) 47); [lia|].
  unfold code. destruct (digit_code d Hd) as [_ ->].
  rewrite u32_id by lia. apply IH; [apply (Forall_inv_tail H)|lia|lia].
Qed.
Lemma fillp_body : forall cs, cs <> [] -> Forall component_good cs -> Forall (fun c => snd c = None) cs ->
  fillp (path_body cs) 0 = Some (map child_number cs).
Proof.
  induction cs as [|[ds m] cs IH]; [congruence|intros _ H L]. rewrite body_cons.
  pose proof (Forall_inv H) as [[Hd _] [_ V]]. unfold component_value in V. pose proof (Forall_inv L) as E. cbn [fst snd] in *. subst m.
  unfold component_text. cbn [fst snd]. rewrite app_nil_r.
  rewrite fillp_component; [|exact Hd|lia|exact V]. cbn [map].
  assert (C : child_number (ds, None) = be_acc 10 0 ds) by (unfold child_number; cbn; rewrite Z.add_0_r; reflexivity).
  rewrite C. destruct cs as [|c cs]; [reflexivity|]. unfold body_rest. cbn [fillp]. change (47 =? 47) with true. cbv iota.
  destruct (Z.leb_spec HARDENED_INDEX (be_acc 10 0 ds)) as [X|_]; [unfold HARDENED_INDEX in X; change (be_acc 10 0 ds) with (be_val 10 ds) in X; lia|].
  rewrite IH; [reflexivity|discriminate|apply (Forall_inv_tail H)|apply (Forall_inv_tail L)].
Qed.
Lemma pub_known : forall cs, Forall component_ok cs -> Forall (fun c => snd c = None) cs -> Forall (known valid_pub) (path_body cs).
Proof.
  induction cs as [|[ds m] cs IH]; intros H L; [constructor|]. rewrite body_cons.
  pose proof (Forall_inv H) as [Hd _]. pose proof (Forall_inv L) as E. cbn [fst snd] in *. subst m.
  apply Forall_app. split.
  - unfold component_text. cbn [fst snd]. rewrite app_nil_r. apply Forall_forall. intros x I. apply in_map_iff in I as [d [<- I]].
    rewrite Forall_forall in Hd. destruct (digit_code d (Hd d I)) as [_ X]. unfold known. rewrite X. discriminate.
  - destruct cs; [constructor|]. constructor; [vm_compute; discriminate|].
    apply IH; [apply (Forall_inv_tail H)|apply (Forall_inv_tail L)].
Qed.
Lemma pub_path_good : forall pre cs post, path_prefix pre -> path_suffix post -> cs <> [] -> Forall component_good cs ->
  Forall (fun c => snd c = None) cs -> len (pre ++ path_body cs ++ post) < 2^63 ->
  pub_path (pre ++ path_body cs ++ post) = Ok (Some (map child_number cs)).
Proof.
  intros pre cs post Hp Hs N G M L.
  assert (O : Forall component_ok cs) by (eapply Forall_impl; [|exact G]; unfold component_good; tauto).
  rewrite pub_shaped; auto.
  - rewrite fillp_body; auto.
  - apply body_shaped; auto.
  - apply pub_known; auto.
Qed.
