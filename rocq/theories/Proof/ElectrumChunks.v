(** Electrum transactions read in pieces. *)
From Coq Require Import Lia.
From Verif Require Import Base.Bytes Base.BytesFacts Spec.Codecs Spec.Wire Spec.Objects Spec.Sighash Spec.Electrum Model.Stream Model.Script Model.Tx Model.Point Model.HD Model.Electrum
  Proof.StreamFacts Proof.HDFacts Proof.HDPub Proof.Chunks Proof.ElectrumParse Proof.ElectrumProps.
Open Scope Z_scope.

(** ** Stages: loops one behind the other, each reading up to a position *)
Record good {S : Type} (I : S -> Z -> Prop) (fine : S -> Prop) (lo hi : Z) (F : S -> Z -> list Z -> outcome (S * Z * list Z)) : Prop := {
  g_nil : forall s pos, I s pos -> F s pos [] = Ok (s, pos, []);
  g_stop : forall s pos st, I s pos -> hi <= pos -> F s pos st = Ok (s, pos, st);
  g_run : forall s pos st s1 p1 r, I s pos -> st = [] \/ lo <= pos -> F s pos st = Ok (s1, p1, r) -> fine s1 ->
    pos <= p1 /\ p1 <= Z.max pos hi /\ I s1 p1 /\ (r = [] \/ hi <= p1);
  g_app : forall s pos a b s2 p2 r2, I s pos -> a ++ b = [] \/ lo <= pos -> F s pos (a ++ b) = Ok (s2, p2, r2) -> fine s2 ->
    exists s1 p1 r1, F s pos a = Ok (s1, p1, r1) /\ fine s1 /\ ((r1 = [] /\ F s1 p1 b = Ok (s2, p2, r2)) \/ (r1 <> [] /\ s1 = s2 /\ p1 = p2 /\ r2 = r1 ++ b));
  g_late : forall s p q, I s p -> hi <= p <= q -> I s q;
  g_early : forall s p q, I s p -> p <= q <= Z.max p lo -> I s q }.

Section Seq.
Variables X Y S : Type.
Variable mk : X -> Y -> S.
Variables (IX : X -> Z -> Prop) (IY : Y -> Z -> Prop) (fx : X -> Prop) (fy : Y -> Prop) (fs : S -> Prop).
Variables lo mid hi : Z.
Variable F : X -> Z -> list Z -> outcome (X * Z * list Z).
Variable G : Y -> Z -> list Z -> outcome (Y * Z * list Z).
Variable H : S -> Z -> list Z -> outcome (S * Z * list Z).
Hypothesis GF : good IX fx lo mid F.
Hypothesis GG : good IY fy mid hi G.
Hypothesis ord : lo <= mid <= hi.
Hypothesis HE : forall x y pos st, H (mk x y) pos st = let! r := F x pos st in let '(x1, p1, r1) := r in let! q := G y p1 r1 in let '(y1, p2, r2) := q in Ok (mk x1 y1, p2, r2).
Hypothesis FS : forall x y, fs (mk x y) <-> fx x /\ fy y.
Definition IS (s : S) (p : Z) : Prop := exists x y, s = mk x y /\ IX x p /\ IY y p.
Lemma seq_inv : forall x y pos st s1 p2 r2, H (mk x y) pos st = Ok (s1, p2, r2) -> exists x1 p1 r1 y1, F x pos st = Ok (x1, p1, r1) /\ G y p1 r1 = Ok (y1, p2, r2) /\ s1 = mk x1 y1.
Proof.
  intros x y pos st s1 p2 r2 E. rewrite HE in E. destruct (F x pos st) as [[[x1 p1] r1]|]; cbn [bind] in E; [|discriminate]. destruct (G y p1 r1) as [[[y1 p3] r3]|] eqn:EG; cbn [bind] in E; [|discriminate].
  injection E as <- <- <-. exists x1, p1, r1, y1. auto.
Qed.
Lemma seq_good : good IS fs lo hi H.
Proof.
  destruct GF as [Fn Fs Fr Fa Fl Fe]. destruct GG as [Gn Gs Gr Ga Gl Ge]. split.
  - intros s pos (x & y & -> & A & B). rewrite HE, Fn by auto. cbn [bind]. rewrite Gn by auto. reflexivity.
  - intros s pos st (x & y & -> & A & B) L. rewrite HE, Fs by (auto; lia). cbn [bind]. rewrite Gs by auto. reflexivity.
  - intros s pos st s1 p2 r2 (x & y & -> & A & B) P E Fi. destruct (seq_inv _ _ _ _ _ _ _ E) as (x1 & p1 & r1 & y1 & EF & EG & ->). apply FS in Fi as (Fi1 & Fi2).
    destruct (Fr _ _ _ _ _ _ A P EF Fi1) as (R1 & R2 & R3 & R4). assert (B1 : IY y p1) by (apply (Ge y pos); auto).
    destruct (Gr _ _ _ _ _ _ B1 R4 EG Fi2) as (Q1 & Q2 & Q3 & Q4). split; [lia|]. split; [lia|]. split; [|exact Q4].
    exists x1, y1. split; [reflexivity|]. split; [|exact Q3]. destruct R4 as [->|R4]; [|apply (Fl x1 p1); auto; lia].
    rewrite Gn in EG by auto. injection EG as <- <- <-. exact R3.
  - intros s pos a b s2 p2 r2 (x & y & -> & A & B) P E Fi. destruct (seq_inv _ _ _ _ _ _ _ E) as (x2 & q1 & t1 & y2 & EF & EG & ->). apply FS in Fi as (Fi1 & Fi2).
    destruct (Fa _ _ _ _ _ _ _ A P EF Fi1) as (x1 & p1 & r1 & E1 & Fx & C). assert (Pa : a = [] \/ lo <= pos) by (destruct P as [P|P]; [left; apply app_eq_nil in P; tauto|auto]).
    destruct (Fr _ _ _ _ _ _ A Pa E1 Fx) as (R1 & R2 & R3 & R4). assert (B1 : IY y p1) by (apply (Ge y pos); auto). destruct C as [(-> & C)|(N & -> & -> & ->)].
    + assert (Pb : b = [] \/ lo <= p1) by (destruct P as [P|P]; [left; apply app_eq_nil in P; tauto|right; lia]).
      destruct (Fr _ _ _ _ _ _ R3 Pb C Fi1) as (T1 & T2 & T3 & T4). assert (B2 : IY y q1) by (apply (Ge y p1); auto).
      exists (mk x1 y), p1, []. split; [rewrite HE, E1; cbn [bind]; rewrite Gn by auto; reflexivity|]. split.
      * apply FS. split; [exact Fx|]. destruct (Ga y q1 [] t1 y2 p2 r2 B2 T4 EG Fi2) as (y0 & p0 & r0 & E0 & Fy & _). rewrite Gn in E0 by auto. injection E0 as <- _ _. exact Fy.
      * left. split; [reflexivity|]. rewrite HE, C. cbn [bind]. rewrite EG. reflexivity.
    + assert (M : mid <= q1) by (destruct R4; [contradiction|auto]). assert (R4' : r1 ++ b = [] \/ mid <= q1) by auto. destruct (Ga _ _ _ _ _ _ _ B1 R4' EG Fi2) as (y1 & p1 & t1 & E2 & Fy & D).
      destruct (Gr _ _ _ _ _ _ B1 (or_intror M) E2 Fy) as (Q1 & Q2 & Q3 & Q4).
      exists (mk x2 y1), p1, t1. split; [rewrite HE, E1; cbn [bind]; rewrite E2; reflexivity|]. split; [apply FS; auto|]. destruct D as [(-> & D)|(ND & -> & -> & ->)].
      * left. split; [reflexivity|]. rewrite HE. rewrite Fs; [|apply (Fl x2 q1); auto; lia|lia]. cbn [bind]. rewrite D. reflexivity.
      * right. auto.
  - intros s p q (x & y & -> & A & B) L. exists x, y. split; [reflexivity|]. split; [apply (Fl x p); auto; lia|apply (Gl y p); auto].
  - intros s p q (x & y & -> & A & B) L. exists x, y. split; [reflexivity|]. split; [apply (Fe x p); auto|apply (Ge y p); auto; lia].
Qed.
End Seq.
Lemma good_ext : forall {S : Type} (I : S -> Z -> Prop) fine lo hi F G, good I fine lo hi F -> (forall s pos st, F s pos st = G s pos st) -> good I fine lo hi G.
Proof.
  intros S I fine lo hi F G [n s r a l e] E. split; auto.
  - intros. rewrite <- E. auto.
  - intros. rewrite <- E. auto.
  - intros s0 pos st s1 p1 r0 A B C. rewrite <- E in C. eauto.
  - intros s0 pos a0 b s2 p2 r2 A B C D. rewrite <- E in C. destruct (a _ _ _ _ _ _ _ A B C D) as (s1 & p1 & r1 & X & Y & Z0). exists s1, p1, r1. rewrite <- !E. auto.
Qed.

(** ** Loops that read bytes *)
Lemma loop_good : forall {S : Type} (f : S -> Z -> Z -> outcome S) lo hi, lo <= hi -> good (fun _ _ => True) (fun _ => True) lo hi (fun s pos st => read_loop_o hi pos f s st).
Proof.
  intros S f lo hi L. split; auto.
  - intros. apply read_loop_o_stop. lia.
  - intros s pos st s1 p1 r _ _ E _. destruct (read_loop_o_pos _ _ _ _ _ _ _ _ E) as (A & B & C & D & _). split; [lia|]. split; [lia|]. split; auto.
  - intros s pos a b s2 p2 r2 _ _ E _. rewrite read_loop_o_app in E. destruct (read_loop_o hi pos f s a) as [[[s1 p1] r1]|]; cbn [bind] in E; [|discriminate]. exists s1, p1, r1. split; [reflexivity|]. split; [exact I|].
    destruct r1; [left; auto|right]. injection E as <- <- <-. split; [discriminate|auto].
Qed.
Lemma loop_total : forall {S : Type} (f : S -> Z -> Z -> S) hi st pos s, read_loop_o hi pos (fun s p c => Ok (f s p c)) s st = Ok (read_loop hi pos f s st).
Proof. intros S f hi. induction st as [|c st IH]; intros pos s; cbn [read_loop read_loop_o]; [reflexivity|]. destruct (pos <? hi); cbn [bind]; auto. Qed.

(** ** The key *)
Section Keys.
Variable uncompress : list Z -> list Z -> outcome (list Z).
Variable valid : list Z -> bool.
Variable garbage : list Z.
Notation hparse := (hp_parse uncompress valid garbage).
Notation hloop := (hd_loop uncompress valid garbage).
Notation fin := (hp_finish uncompress valid garbage).
(** A key between two pieces: [lo] is where it begins. *)
Definition key_at (lo : Z) (k : hdpub) (pos : Z) : Prop :=
  match hp_status k with
  | INCOMPLETE => pos = lo + hp_parsed k /\ 0 < hp_parsed k < 78
  | DONE => pos <= lo \/ lo + 78 <= pos
  | FAILED => True
  end.
Definition key_fine (k : hdpub) : Prop := hp_status k <> FAILED.
Lemma parse_facts : forall lo k pos st k2 n r, key_at lo k pos -> lo <= pos < lo + 78 -> st <> [] -> hparse k st = Ok (k2, n, r) -> key_fine k2 ->
  0 < n /\ ((hp_status k2 = DONE /\ pos + n = lo + 78) \/ (hp_status k2 = INCOMPLETE /\ r = [] /\ pos + n = lo + hp_parsed k2 /\ 0 < hp_parsed k2 < 78)).
Proof.
  intros lo k pos st k2 n r I P NE E Fi.
  assert (B : exists h, hp_status h = INCOMPLETE /\ hp_parsed h = pos - lo /\ gbody _ hp_store hp_status hp_parsed fin h st = Ok (k2, n, r)).
  { rewrite hp_parse_g in E. unfold gparse in E. unfold key_at in I. destruct (hp_status k) eqn:S.
    - exists (hp_start k 0). split; [reflexivity|]. split; [cbn [hp_start hp_parsed]; lia|exact E].
    - exists (hp_start k (hp_parsed k)). split; [reflexivity|]. split; [cbn [hp_start hp_parsed]; lia|exact E].
    - injection E as <- _ _. contradiction. }
  destruct B as (h & S & PH & E2). unfold gbody in E2. destruct (gloop _ hp_store hp_status h (hp_parsed h) st) as [[k' p] r'] eqn:EL.
  destruct (gloop_keep _ hp_store hp_status hp_h1 _ _ _ _ _ _ EL S ltac:(lia)) as (R1 & R3 & R4).
  assert (ADV : hp_parsed h < p).
  { destruct st as [|c st]; [contradiction|]. cbn [gloop] in EL. destruct (Z.ltb_spec (hp_parsed h) 78); [|lia]. destruct (hp_h1 h (hp_parsed h) c S) as [Q|Q]; rewrite Q in EL.
    - destruct (gloop_keep _ hp_store hp_status hp_h1 _ _ _ _ _ _ EL Q ltac:(lia)) as (T & _). lia.
    - injection EL as _ <- _. lia. }
  destruct R3 as [Q|Q]; rewrite Q in E2.
  2: { injection E2 as <- _ _. contradiction. }
  destruct (Z.eq_dec p 78) as [->|N].
  - destruct (fin k' 78) as [k3|] eqn:EF; cbn [bind] in E2; [|discriminate]. assert (EN : n = 78 - hp_parsed h) by congruence. assert (EK : k3 = k2) by congruence. subst k3. clear E2. split; [lia|]. left. split; [|lia].
    pose proof (hp_h11 _ _ _ _ _ EF). destruct (hp_status k2) eqn:S3; [reflexivity|contradiction|unfold key_fine in Fi; congruence].
  - rewrite hp_h9 in E2 by exact N. cbn [bind] in E2. assert (EN : n = p - hp_parsed h) by congruence. assert (EK : hp_setp k' p = k2) by congruence. assert (ER : r' = r) by congruence. subst k2 r'. clear E2. split; [lia|]. right. split; [exact Q|]. split; [apply R4; auto; lia|]. cbn [hp_setp hp_parsed]. lia.
Qed.
Lemma hloop_end : forall f limit pos k st, limit <= pos \/ st = [] -> hloop f limit pos k st = Ok (k, pos, st).
Proof. intros [|f] limit pos k [|c st] [L|L]; try discriminate L; try reflexivity. cbn [hd_loop]. destruct (Z.ltb_spec pos limit); [lia|reflexivity]. Qed.
Lemma hloop_failed : forall f limit pos k st k2 p2 r2, hp_status k = FAILED -> hloop f limit pos k st = Ok (k2, p2, r2) -> k2 = k.
Proof.
  intros [|f] limit pos k [|c st] k2 p2 r2 S E; cbn [hd_loop] in E; try (injection E as <- _ _; reflexivity). destruct (pos <? limit); [|injection E as <- _ _; reflexivity].
  unfold hp_parse in E. rewrite S in E. cbn [bind] in E. discriminate.
Qed.
(** One turn of the loop is all there is. *)
Lemma hloop_one : forall lo k pos st k2 p2 r2, key_at lo k pos -> lo <= pos < lo + 78 -> st <> [] -> key_fine k2 ->
  hloop (length st) (lo + 78) pos k st = Ok (k2, p2, r2) <-> exists n, hparse k st = Ok (k2, n, r2) /\ p2 = pos + n.
Proof.
  intros lo k pos st k2 p2 r2 I P NE Fi. destruct st as [|c st]; [contradiction|]. cbn [length hd_loop]. destruct (Z.ltb_spec pos (lo + 78)); [|lia]. split.
  - intros E. destruct (hparse k (c :: st)) as [[[k1 n] st1]|] eqn:EP; cbn [bind] in E; [|discriminate]. destruct (Z.eqb_spec n 0); [discriminate|].
    assert (F1 : key_fine k1) by (intros X; apply hloop_failed in E; [subst; contradiction|exact X]).
    destruct (parse_facts lo k pos (c :: st) k1 n st1 I P ltac:(discriminate) EP F1) as (_ & [(D & L)|(D & -> & _)]); rewrite hloop_end in E by (auto; lia); injection E as <- <- <-; eauto.
  - intros (n & EP & ->). rewrite EP. cbn [bind]. destruct (parse_facts lo k pos (c :: st) k2 n r2 I P ltac:(discriminate) EP Fi) as (N & C). destruct (Z.eqb_spec n 0); [lia|].
    destruct C as [(D & L)|(D & -> & _)]; rewrite hloop_end by (auto; lia); reflexivity.
Qed.
Lemma key_good : forall lo, good (key_at lo) key_fine lo (lo + 78) (fun k pos st => hloop (length st) (lo + 78) pos k st).
Proof.
  intros lo. split.
  - intros s pos _. apply hloop_end. auto.
  - intros s pos st _ L. apply hloop_end. auto.
  - intros k pos st k1 p1 r I P E Fi. destruct st as [|c st]; [rewrite hloop_end in E by auto; injection E as <- <- <-; repeat split; auto; lia|]. destruct P as [P|P]; [discriminate|].
    destruct (Z.le_gt_cases (lo + 78) pos) as [L|L]; [rewrite hloop_end in E by auto; injection E as <- <- <-; repeat split; auto; lia|].
    apply (proj1 (hloop_one lo k pos (c :: st) k1 p1 r I ltac:(lia) ltac:(discriminate) Fi)) in E as (n & E & ->). destruct (parse_facts lo k pos (c :: st) k1 n r I ltac:(lia) ltac:(discriminate) E Fi) as (N & [(D & Q)|(D & -> & Q & R)]).
    + split; [lia|]. split; [lia|]. split; [unfold key_at; rewrite D; lia|lia].
    + split; [lia|]. split; [lia|]. split; [unfold key_at; rewrite D; lia|auto].
  - intros k pos a b k2 p2 r2 I P E Fi. destruct b as [|d b].
    { rewrite app_nil_r in E. exists k2, p2, r2. split; [exact E|]. split; [exact Fi|]. destruct r2; [left; split; [reflexivity|apply hloop_end; auto]|right; rewrite app_nil_r; split; [discriminate|auto]]. }
    destruct a as [|c a]; [exists k, pos, []; split; [apply hloop_end; auto|]; split; [|left; auto]|].
    { intros X. apply hloop_failed in E; [subst; contradiction|exact X]. }
    destruct P as [P|P]; [discriminate|].
    destruct (Z.le_gt_cases (lo + 78) pos) as [L|L].
    { rewrite hloop_end in E by auto. injection E as <- <- <-. exists k, pos, (c :: a). split; [apply hloop_end; auto|]. split; [exact Fi|]. right. split; [discriminate|auto]. }
    apply (proj1 (hloop_one lo k pos ((c :: a) ++ d :: b) k2 p2 r2 I ltac:(lia) ltac:(discriminate) Fi)) in E as (n & E & ->).
    assert (T : same_result hp_status (hparse k ((c :: a) ++ d :: b)) (chain hparse hp_status (hparse k (c :: a)) (d :: b))).
    { assert (Q : forall k st, hparse k st = gparse _ hp_store hp_status hp_parsed hp_start fin k st) by (intros; apply hp_parse_g).
      rewrite !Q. assert (GI : ginv _ hp_status hp_parsed k) by (intros S; unfold key_at in I; rewrite S in I; lia).
      assert (TW : forall h, hp_status h = INCOMPLETE -> 0 <= hp_parsed h < 78 -> same_result hp_status (gbody _ hp_store hp_status hp_parsed fin h ((c :: a) ++ d :: b)) (chain (gparse _ hp_store hp_status hp_parsed hp_start fin) hp_status (gbody _ hp_store hp_status hp_parsed fin h (c :: a)) (d :: b))).
      { intros h A B. apply (gbody_two _ hp_store hp_status hp_parsed hp_setp hp_start fin); auto;
        [apply hp_h1|apply hp_h2|apply hp_h8|apply hp_h9|intros [] ?; reflexivity|apply hp_h11]. }
      assert (CE : forall r, chain hparse hp_status r (d :: b) = chain (gparse _ hp_store hp_status hp_parsed hp_start fin) hp_status r (d :: b)) by (intros [[[x y] z]|]; unfold chain; cbn [bind]; [rewrite Q|]; reflexivity).
      rewrite CE. unfold gparse at 1 3. unfold ginv in GI. destruct (hp_status k) eqn:S.
      - apply TW; [reflexivity|cbn; lia].
      - apply TW; [reflexivity|cbn; auto].
      - left. unfold chain. cbn [bind]. rewrite S. reflexivity. }
    destruct T as [T|[(x & y & z & T & U) _]]; [|rewrite E in T; injection T as <- _ _; contradiction].
    rewrite E in T. unfold chain in T. destruct (hparse k (c :: a)) as [[[k1 n1] r1]|] eqn:EA; cbn [bind] in T; [|discriminate].
    assert (F1 : key_fine k1) by (intros S1; rewrite S1 in T; injection T as -> _ _; contradiction).
    destruct (parse_facts lo k pos (c :: a) k1 n1 r1 I ltac:(lia) ltac:(discriminate) EA F1) as (N1 & C).
    assert (HA : hloop (length (c :: a)) (lo + 78) pos k (c :: a) = Ok (k1, pos + n1, r1)) by (apply (hloop_one lo k pos (c :: a) k1 (pos + n1) r1 I ltac:(lia) ltac:(discriminate) F1); eauto).
    exists k1, (pos + n1), r1. split; [exact HA|]. split; [exact F1|]. destruct C as [(D & Q)|(D & -> & Q & R)]; rewrite D in T.
    + injection T as -> -> ->. destruct r1; [left|right; split; [discriminate|auto]]. split; [reflexivity|]. apply hloop_end. lia.
    + left. split; [reflexivity|]. destruct (hparse k1 (d :: b)) as [[[k3 n3] r3]|] eqn:EB; cbn [bind] in T; [|discriminate]. injection T as -> -> ->.
      apply (hloop_one lo); auto; [unfold key_at; rewrite D; lia|lia|discriminate|]. exists n3. split; [exact EB|lia].
  - intros k p q I L. unfold key_at in *. destruct (hp_status k); lia.
  - intros k p q I L. unfold key_at in *. destruct (hp_status k); lia.
Qed.

(** ** The data of one input *)
Lemma good_iff : forall {S : Type} (I J : S -> Z -> Prop) fine fine' lo hi F, good I fine lo hi F -> (forall s p, I s p <-> J s p) -> (forall s, fine s <-> fine' s) -> good J fine' lo hi F.
Proof.
  intros S I J fi fi' lo hi F [n s r a l e] E E2. split.
  - intros s0 pos A. apply n, E, A.
  - intros s0 pos st A. apply s, E, A.
  - intros s0 pos st s1 p1 r1 A B C D. apply E in A. apply E2 in D. destruct (r _ _ _ _ _ _ A B C D) as (X1 & X2 & X3 & X4). apply E in X3. auto.
  - intros s0 pos a0 b s2 p2 r2 A B C D. apply E in A. apply E2 in D. destruct (a _ _ _ _ _ _ _ A B C D) as (s1 & p1 & r1 & X1 & X2 & X3). exists s1, p1, r1. apply E2 in X2. auto.
  - intros s0 p q A B. apply E in A. apply E. eauto.
  - intros s0 p q A B. apply E in A. apply E. eauto.
Qed.
Notation yes := (fun _ _ => True).
Notation yes1 := (fun _ => True).
Definition st1 (start : Z) (a : Z) (pos : Z) (st : list Z) : outcome (Z * Z * list Z) :=
  let '(p1, r1) := skip_loop (start + 5) pos st in Ok (read_loop (start + 13) p1 (acc64 (start + 5)) a r1).
Definition st2 (start : Z) (a : Z) (pos : Z) (st : list Z) : outcome (Z * Z * list Z) :=
  let! r := st1 start a pos st in let '(a1, p1, r1) := r in let '(p2, r2) := skip_loop (start + 20) p1 r1 in Ok (a1, p2, r2).
Definition st3 (start : Z) (x : Z * hdpub) (pos : Z) (st : list Z) : outcome ((Z * hdpub) * Z * list Z) :=
  let! r := st2 start (fst x) pos st in let '(a1, p1, r1) := r in
  let! q := hloop (length r1) (start + 98) p1 (snd x) r1 in let '(k, p2, r2) := q in Ok ((a1, k), p2, r2).
Lemma skip_o : forall hi pos st, read_loop_o hi pos (fun (u : unit) _ _ => Ok u) tt st = let '(p, r) := skip_loop hi pos st in Ok (tt, p, r).
Proof. intros. unfold skip_loop. rewrite (loop_total (fun (u : unit) _ _ => u)). destruct (read_loop hi pos _ tt st) as [[[] p] r]. reflexivity. Qed.
Lemma st1_good : forall start, good yes yes1 start (start + 13) (st1 start).
Proof.
  intros start. pose proof (@loop_good unit (fun u _ _ => Ok u) start (start + 5) ltac:(lia)) as A.
  pose proof (@loop_good Z (fun s p c => Ok (acc64 (start + 5) s p c)) (start + 5) (start + 13) ltac:(lia)) as B.
  pose proof (seq_good _ _ _ (fun (_ : unit) a => a) _ _ _ _ yes1 _ _ _ _ _ (st1 start) A B ltac:(lia)) as C.
  eapply good_iff; [apply C| |].
  - intros [] y pos st. rewrite skip_o. unfold st1. destruct (skip_loop (start + 5) pos st) as [p r]. cbn [bind]. rewrite (loop_total (acc64 (start + 5))). destruct (read_loop (start + 13) p (acc64 (start + 5)) y r) as [[a q] t]. reflexivity.
  - tauto.
  - intros s p. split; [auto|]. intros _. exists tt, s. auto.
  - tauto.
Qed.
Lemma st2_good : forall start, good yes yes1 start (start + 20) (st2 start).
Proof.
  intros start. pose proof (@loop_good unit (fun u _ _ => Ok u) (start + 13) (start + 20) ltac:(lia)) as B.
  pose proof (seq_good _ _ _ (fun a (_ : unit) => a) _ _ _ _ yes1 _ _ _ _ _ (st2 start) (st1_good start) B ltac:(lia)) as C.
  eapply good_iff; [apply C| |].
  - intros y [] pos st. unfold st2. destruct (st1 start y pos st) as [[[a p] r]|]; [|reflexivity]. cbn [bind]. rewrite skip_o. destruct (skip_loop (start + 20) p r) as [q t]. reflexivity.
  - tauto.
  - intros s p. split; [auto|]. intros _. exists s, tt. auto.
  - tauto.
Qed.
Lemma st3_good : forall start, good (fun x p => key_at (start + 20) (snd x) p) (fun x => key_fine (snd x)) start (start + 98) (st3 start).
Proof.
  intros start. pose proof (key_good (start + 20)) as B. replace (start + 20 + 78) with (start + 98) in B by lia.
  pose proof (seq_good _ _ _ (fun a k => (a, k)) _ _ _ _ (fun x => key_fine (snd x)) _ _ _ _ _ (st3 start) (st2_good start) B ltac:(lia)) as C.
  eapply good_iff; [apply C| |].
  - intros y k pos st. unfold st3. cbn [fst snd]. reflexivity.
  - cbn [snd]. tauto.
  - intros [a k] p. split; [intros (x & y & E & _ & K); injection E as -> ->; exact K|]. intros K. exists a, k. auto.
  - tauto.
Qed.
Notation meta := (segwit_meta uncompress valid garbage).
Lemma meta_good : forall start, good (fun m p => key_at (start + 20) (em_hd m) p) (fun m => key_fine (em_hd m)) start (start + 102) (fun m pos st => meta start pos m st).
Proof.
  intros start. pose proof (@loop_good (Z * Z) (fun s p c => Ok (acc_der (start + 98) s p c)) (start + 98) (start + 102) ltac:(lia)) as B.
  pose proof (seq_good _ _ _ (fun (x : Z * hdpub) (d : Z * Z) => mkEm (snd x) (fst d) (snd d) (fst x)) _ _ _ _ (fun m => key_fine (em_hd m)) _ _ _ _ _ (fun m pos st => meta start pos m st) (st3_good start) B ltac:(lia)) as C.
  eapply good_iff; [apply C| |].
  - intros [a k] [d0 d1] pos st. unfold segwit_meta, st3, st2, st1. cbn [em_amount em_hd em_d0 em_d1 fst snd]. destruct (skip_loop (start + 5) pos st) as [p r]. cbn [bind].
    destruct (read_loop (start + 13) p (acc64 (start + 5)) a r) as [[a1 p1] r1]. destruct (skip_loop (start + 20) p1 r1) as [p2 r2]. cbn [bind]. 
    destruct (hloop (length r2) (start + 98) p2 k r2) as [[[k1 p3] r3]|]; [|reflexivity]. cbn [bind fst snd]. rewrite (loop_total (acc_der (start + 98))). cbn [bind].
    destruct (read_loop (start + 102) p3 (acc_der (start + 98)) (d0, d1) r3) as [[d p4] r4]. reflexivity.
  - cbn [em_hd]. tauto.
  - intros [k d0 d1 a] p. split; [intros (x & y & E & K & _); injection E as -> _ _ _; exact K|]. intros K. exists (a, k), (d0, d1). auto.
  - tauto.
Qed.

(** ** All inputs and the lock time *)
Definition body_loop (start n : Z) (s : list emeta * Z) (pos : Z) (st : list Z) : outcome ((list emeta * Z) * Z * list Z) :=
  let! r := segwit_metas uncompress valid garbage start pos (fst s) st in let '(l, p1, r1) := r in
  let! q := read_loop_o (start + 102 * n + 4) p1 (acc32 (start + 102 * n)) (snd s) r1 in let '(lock, p2, r2) := q in Ok ((l, lock), p2, r2).
Fixpoint metas_at (start : Z) (l : list emeta) (p : Z) : Prop :=
  match l with
  | [] => True
  | m :: t => key_at (start + 20) (em_hd m) p /\ metas_at (start + 102) t p
  end.
Definition metas_fine (s : list emeta * Z) : Prop := Forall (fun m => key_fine (em_hd m)) (fst s).
Lemma body_good : forall n start, good (fun s p => length (fst s) = n /\ metas_at start (fst s) p) metas_fine start (start + 102 * Z.of_nat n + 4) (body_loop start (Z.of_nat n)).
Proof.
  induction n as [|n IH]; intros start.
  - pose proof (@loop_good Z (acc32 start) start (start + 4) ltac:(lia)) as B.
    replace (start + 102 * Z.of_nat 0) with start by lia. destruct B as [Bn Bs Br Ba Bl Be].
    assert (Q : forall l lock pos st, l = [] -> body_loop start (Z.of_nat 0) (l, lock) pos st = let! q := read_loop_o (start + 4) pos (acc32 start) lock st in let '(lock, p2, r2) := q in Ok (([], lock), p2, r2)).
    { intros l lock pos st ->. unfold body_loop. cbn [fst snd segwit_metas bind]. replace (start + 102 * Z.of_nat 0) with start by lia. reflexivity. }
    split.
    + intros [[|] lock] pos (L & _); [|discriminate L]. rewrite Q, Bn by auto. reflexivity.
    + intros [[|] lock] pos st (L & _) H; [|discriminate L]. rewrite Q, Bs by auto. reflexivity.
    + intros [[|] lock] pos st s1 p1 r (L & _) P E Fi; [|discriminate L]. rewrite Q in E by auto. destruct (read_loop_o (start + 4) pos (acc32 start) lock st) as [[[k2 p2] r2]|] eqn:ER; cbn [bind] in E; [|discriminate].
      injection E as <- <- <-. destruct (Br lock pos st k2 p2 r2 I P ER I) as (X1 & X2 & _ & X4). cbn [fst metas_at length]. auto.
    + intros [[|] lock] pos a b s2 p2 r2 (L & _) P E Fi; [|discriminate L]. rewrite Q in E by auto. destruct (read_loop_o (start + 4) pos (acc32 start) lock (a ++ b)) as [[[k2 p3] r3]|] eqn:ER; cbn [bind] in E; [|discriminate].
      injection E as <- <- <-. destruct (Ba lock pos a b k2 p3 r3 I P ER I) as (k1 & p1 & r1 & X1 & _ & X2). exists ([], k1), p1, r1. split; [rewrite Q by auto; rewrite X1; reflexivity|]. split; [constructor|].
      destruct X2 as [(-> & X2)|(X2 & -> & -> & ->)]; [left; split; [reflexivity|]; rewrite Q by auto; rewrite X2; reflexivity|right; auto].
    + intros [[|] lock] p q (L & _) H; [|discriminate L]. cbn. auto.
    + intros [[|] lock] p q (L & _) H; [|discriminate L]. cbn. auto.
  - pose proof (IH (start + 102)) as B. replace (start + 102 + 102 * Z.of_nat n + 4) with (start + 102 * Z.of_nat (S n) + 4) in B by lia.
    pose proof (seq_good _ _ _ (fun m (s : list emeta * Z) => (m :: fst s, snd s)) _ _ _ _ metas_fine _ _ _ _ _ (body_loop start (Z.of_nat (S n))) (meta_good start) B ltac:(lia)) as C.
    eapply good_iff; [apply C| |].
    + intros m [l lock] pos st. unfold body_loop. cbn [fst snd segwit_metas]. destruct (meta start pos m st) as [[[m1 p1] r1]|]; [|reflexivity]. cbn [bind].
      destruct (segwit_metas uncompress valid garbage (start + 102) p1 l r1) as [[[l2 p2] r2]|]; [|reflexivity]. cbn [bind].
      replace (start + 102 + 102 * Z.of_nat n) with (start + 102 * Z.of_nat (S n)) by lia.
      destruct (read_loop_o (start + 102 * Z.of_nat (S n) + 4) p2 (acc32 (start + 102 * Z.of_nat (S n))) lock r2) as [[[k p3] r3]|]; reflexivity.
    + intros m [l lock]. unfold metas_fine. cbn [fst snd]. rewrite Forall_cons_iff. tauto.
    + intros [l lock] p. unfold IS. cbn [fst snd]. split.
      * intros (m & [l' k'] & E & K & L & M). cbn [fst snd] in *. injection E as -> ->. cbn [length metas_at]. auto.
      * intros (L & M). destruct l as [|m l]; [discriminate L|]. cbn [metas_at length] in *. exists m, (l, lock). cbn [fst snd]. split; [reflexivity|]. split; [tauto|]. split; [lia|tauto].
    + tauto.
Qed.

(** ** The object between two pieces *)
Variable junk : nat -> Z * Z * Z.
Notation parse := (el_parse uncompress valid garbage junk).
Section Tx.
Variables (t : tx) (n : nat) (start : Z).
Hypothesis done : t_status t = DONE.
Hypothesis start_6 : 6 <= start.
Definition relock (lock : Z) : tx := mkTx (t_version t) (t_ins t) (t_outs t) lock (t_segflag t) (t_status t) (t_parsed t).
Hypothesis tx_len : forall lock, tx_length (relock lock) = start - 4.
Notation stop := (start + 102 * Z.of_nat n + 4).
Definition obj (s : list emeta * Z) (p : Z) : electrum := mkEl (relock (snd s)) true (Some (fst s)) (if p =? stop then DONE else INCOMPLETE) p.
Lemma body_obj : forall s p0 pos st, length (fst s) = n -> segwit_body uncompress valid garbage (relock (snd s)) (fst s) p0 pos st =
  let! r := body_loop start (Z.of_nat n) s pos st in let '(s1, p1, r1) := r in Ok (obj s1 p1, p1 - p0, r1).
Proof.
  intros [l lock] p0 pos st L. cbn [fst snd] in *. unfold segwit_body, body_loop. cbn [fst snd]. rewrite tx_len. replace (6 + (start - 4) + 2 - 4) with start by lia.
  replace (len l) with (Z.of_nat n) by (unfold len; lia).
  destruct (segwit_metas uncompress valid garbage start pos l st) as [[[l1 p1] r1]|]; [|reflexivity]. cbn [bind relock t_lock].
  destruct (read_loop_o _ p1 _ lock r1) as [[[k p2] r2]|]; reflexivity.
Qed.
Lemma parse_obj : forall s p st, length (fst s) = n -> start <= p < stop -> parse (obj s p) st = let! r := body_loop start (Z.of_nat n) s p st in let '(s1, p1, r1) := r in Ok (obj s1 p1, p1 - p, r1).
Proof.
  intros s p st L P. rewrite <- body_obj by auto. unfold el_parse, obj at 1. cbn [el_status]. destruct (Z.eqb_spec p stop); [lia|]. unfold el_body, obj. cbn [el_parsed el_segwit el_tx el_metas].
  assert (X : prefix_loop p st = (p, st, false)) by (destruct st as [|c st]; [reflexivity|]; cbn [prefix_loop]; destruct (Z.ltb_spec p 6); [lia|reflexivity]).
  rewrite X. cbn [negb andb]. unfold el_after. cbn [relock t_status]. rewrite done. reflexivity.
Qed.
Lemma feed_obj : forall chunks s p s2 r2, length (fst s) = n -> metas_at start (fst s) p -> start <= p < stop ->
  body_loop start (Z.of_nat n) s p (concat chunks) = Ok (s2, stop, r2) -> metas_fine s2 -> feed parse el_status (obj s p) chunks = Ok (obj s2 stop, stop - p, r2).
Proof.
  pose proof (body_good n start) as [Gn Gs Gr Ga _ _]. induction chunks as [|c cs IH]; intros s p s2 r2 L M P E Fi.
  - cbn [concat] in E. rewrite Gn in E by auto. assert (p = stop) by congruence. lia.
  - cbn [concat] in E. destruct (Ga s p c (concat cs) s2 stop r2 (conj L M) ltac:(right; lia) E Fi) as (s1 & p1 & r1 & E1 & F1 & C).
    destruct (Gr s p c s1 p1 r1 (conj L M) ltac:(right; lia) E1 F1) as (X1 & X2 & (X3 & X3') & X4).
    cbn [feed]. rewrite parse_obj by auto. rewrite E1. cbn [bind]. unfold obj at 1. cbn [el_status].
    destruct C as [(-> & C)|(N & -> & -> & ->)].
    + destruct (Z.eqb_spec p1 stop) as [Q|Q].
      * rewrite Q in *. rewrite Gs in C by (auto; lia). assert (C1 : s1 = s2) by congruence. assert (C2 : concat cs = r2) by congruence. rewrite C1, C2. reflexivity.
      * rewrite (IH s1 p1 s2 r2) by (auto; lia). cbn [bind app]. do 3 f_equal. lia.
    + rewrite Z.eqb_refl. reflexivity.
Qed.
End Tx.

Lemma fresh_at : forall (l : list s_txin) start pos, pos <= start + 13 -> metas_at start (map (fun _ => mkEm hp_new 0 0 0) l) pos.
Proof.
  induction l as [|i l IH]; intros start pos Q; cbn [map metas_at]; [exact I|]. split; [|apply IH; lia].
  unfold key_at. cbn [em_hd]. change (hp_status hp_new) with DONE. cbv iota. lia.
Qed.
(** From the first piece on, once it goes beyond the first bytes of the data of the inputs. *)
Lemma chunks_generic : forall e v bs a cs s2 rest k, el_status e = DONE -> tx_ok v -> 1 <= len (s_ins v) <= 13 -> len (s_outs v) < 253 ->
  length bs = length (s_ins v) -> Forall (fun b => 253 <= b) bs ->
  parse e (electrum_magic ++ before_witness v ++ bs ++ a ++ concat cs) = Ok (s2, k, rest) -> el_status s2 = DONE ->
  (forall ms, el_metas s2 = Some ms -> Forall (fun m => key_fine (em_hd m)) ms) ->
  feed parse el_status e ((electrum_magic ++ before_witness v ++ bs ++ a) :: cs) = Ok (s2, k, rest).
Proof.
  intros e v bs a cs s2 rest k D TX NI NO LB BIG E DN Fi.
  cbn [feed]. rewrite el_front in E |- * by (auto; lia). set (t := clean_tx v bs 0) in *. set (n := length (s_ins v)). set (start := 6 + len (before_witness v)).
  pose proof (len_nonneg _ (before_witness v)) as BN.
  assert (TL : forall lock, tx_length (relock t lock) = start - 4).
  { intros lock. change (relock t lock) with (clean_tx v bs lock). rewrite clean_length by (auto; lia). unfold start. lia. }
  set (s := (map (fun _ : s_txin => mkEm hp_new 0 0 0) (s_ins v), 0)).
  assert (Ls : length (fst s) = n) by (unfold s; cbn [fst]; rewrite map_length; reflexivity).
  set (pos := 6 + (len (before_witness v) + len (s_ins v))) in *. assert (PE : start <= pos <= start + 13) by (unfold pos, start; lia).
  assert (M : metas_at start (fst s) pos).
  { apply fresh_at. lia. }
  change t with (relock t (snd s)) in E |- *. change (map (fun _ : s_txin => mkEm hp_new 0 0 0) (s_ins v)) with (fst s) in E |- *.
  rewrite (body_obj t n start TL) in E |- * by auto.
  destruct (body_loop start (Z.of_nat n) s pos (a ++ concat cs)) as [[[s3 p3] r3]|] eqn:EB; cbn [bind] in E; [|discriminate].
  assert (E1 : obj t n start s3 p3 = s2) by congruence. assert (E2 : p3 - 0 = k) by congruence. assert (E3 : r3 = rest) by congruence. clear E.
  assert (P3 : p3 = start + 102 * Z.of_nat n + 4).
  { rewrite <- E1 in DN. unfold obj in DN. cbn [el_status] in DN. destruct (Z.eqb_spec p3 (start + 102 * Z.of_nat n + 4)); [auto|discriminate DN]. }
  assert (F3 : metas_fine s3) by (apply (Fi (fst s3)); rewrite <- E1; reflexivity).
  pose proof (body_good n start) as [Gn Gs Gr Ga _ _].
  destruct (Ga s pos a (concat cs) s3 p3 r3 (conj Ls M) ltac:(right; lia) EB F3) as (s1 & p1 & r1 & X1 & F1 & C).
  destruct (Gr s pos a s1 p1 r1 (conj Ls M) ltac:(right; lia) X1 F1) as (Y1 & Y2 & (Y3 & Y3') & Y4).
  rewrite X1. cbn [bind]. unfold obj at 1. cbn [el_status]. assert (NP : 1 <= Z.of_nat n) by (unfold n; unfold len in NI; lia).
  rewrite P3 in *. clear P3. destruct C as [(-> & C)|(N & -> & -> & ->)].
  - destruct (Z.eqb_spec p1 (start + 102 * Z.of_nat n + 4)) as [Q|Q].
    + rewrite Q in *. rewrite Gs in C by (auto; lia). assert (C1 : s1 = s3) by congruence. assert (C2 : concat cs = r3) by congruence. rewrite C1, C2. cbn [app]. congruence.
    + rewrite (feed_obj t n start eq_refl ltac:(lia) TL cs s1 p1 s3 r3) by (auto; lia). cbn [bind app]. rewrite E1, E3. do 3 f_equal. lia.
  - rewrite Z.eqb_refl. congruence.
Qed.
End Keys.

Theorem segwit_chunks : forall garbage junk e v xs rest c cs, el_status e = DONE -> tx_ok v -> no_witnesses v -> 1 <= len (s_ins v) <= 5 -> len (s_outs v) < 253 ->
  length xs = length (s_ins v) -> Forall einput_ok xs -> Forall key_on_curve xs ->
  concat (c :: cs) = electrum_segwit v xs ++ rest -> 6 + len (before_witness v) + len (s_ins v) <= len c ->
  exists e', feed (el_parse uncompress_pubkey pt_valid_bytes garbage junk) el_status e (c :: cs) = Ok (e', len (electrum_segwit v xs), rest) /\
    el_parse uncompress_pubkey pt_valid_bytes garbage junk e (electrum_segwit v xs ++ rest) = Ok (e', len (electrum_segwit v xs), rest) /\
    el_status e' = DONE /\ electrum_holds e' v xs /\ amounts_hold e' xs.
Proof.
  intros garbage junk e v [|x xs] rest c cs D TX NW NI NO LX OK OC CE CL; [unfold len in NI; cbn [length] in LX; lia|].
  set (kb := fun y => xpub_bytes (e_key y)). set (w := x :: xs).
  assert (FF : Forall fine (x :: xs)) by (eapply Forall_impl; [exact ok_fine|exact OK]).
  assert (RK : forall ys, Forall einput_ok ys -> Forall key_on_curve ys -> Forall2 (read_key uncompress_pubkey pt_valid_bytes garbage kb) ys (map key_of ys)).
  { clear. induction ys as [|y ys IH]; intros OK OC; cbn [map]; [constructor|]. apply Forall_cons_iff in OK as (O1 & O2). apply Forall_cons_iff in OC as (C1 & C2). constructor; [apply key_read; [apply O1|auto]|auto]. }
  assert (N5 : (length (s_ins v) <= 5)%nat) by (unfold len in NI; lia).
  assert (BIG : Forall (fun b => 253 <= b) (firstn (length (s_ins v)) (head13 x))) by (apply (head_big junk); replace (length (s_ins v) - 5)%nat with 0%nat by lia; exact (Forall_nil _)).
  pose proof (segwit_parse uncompress_pubkey pt_valid_bytes garbage junk kb e v x xs (key_of x) (map key_of xs) rest D TX ltac:(lia) NO LX ltac:(lia) FF
    (key_read garbage x (proj1 (Forall_inv OK)) (Forall_inv OC)) (RK xs (Forall_inv_tail OK) (Forall_inv_tail OC)) BIG) as P.
  destruct (segwit_ok garbage junk e v w rest D TX NW NI NO LX OK OC) as (e' & Q & S & H & A).
  exists e'. split; [|auto]. change (segwit_with kb v (x :: xs)) with (electrum_segwit v w) in P. set (bs := firstn (length (s_ins v)) (head13 x)) in *.
  assert (LB : length bs = length (s_ins v)) by (unfold bs; rewrite firstn_length, head_len; lia).
  assert (W : exists tail, electrum_segwit v w ++ rest = (electrum_magic ++ before_witness v ++ bs) ++ tail).
  { exists (skipn (length (s_ins v)) (head13 x) ++ e_how x ++ kb x ++ e_path x ++ flat_map (fun x => witness_with (kb x) x) xs ++ le_bytes 4 (s_lock v) ++ rest).
    unfold electrum_segwit, segwit_with, w. cbn [flat_map]. unfold witness_with at 1. unfold bs. rewrite <- !app_assoc. rewrite (app_assoc (firstn _ _)), firstn_skipn. unfold head13. rewrite <- !app_assoc. reflexivity. }
  destruct W as (tail & W).
  assert (LP : len (electrum_magic ++ before_witness v ++ bs) = 6 + len (before_witness v) + len (s_ins v)) by (rewrite !len_app, len_magic; unfold len; rewrite LB; lia).
  assert (C2 : exists a, c = (electrum_magic ++ before_witness v ++ bs) ++ a /\ tail = a ++ concat cs).
  { change (electrum_segwit v (x :: xs)) with (electrum_segwit v w) in CE. rewrite <- CE in W. cbn [concat] in W. rewrite <- LP in CL. clear - W CL. remember (electrum_magic ++ before_witness v ++ bs) as p. clear Heqp. revert c W CL.
    induction p as [|b p IH]; intros c W CL; [exists c; auto|]. destruct c as [|d c]; [rewrite len_cons, len_nil in CL; pose proof (len_nonneg _ p); lia|].
    cbn [app] in W. injection W as -> W. rewrite !len_cons in CL. destruct (IH c W ltac:(lia)) as (a & -> & ->). exists a. auto. }
  destruct C2 as (a & -> & ->). rewrite W in Q, P. rewrite <- !app_assoc in Q, P. rewrite <- !app_assoc.
  apply (chunks_generic uncompress_pubkey pt_valid_bytes garbage junk e v bs a cs e' rest); auto; [lia|].
  intros ms E. rewrite P in Q. assert (EE : el_metas e' = Some (mkEm (key_of x) (e_first x) (e_second x) (without (length (s_ins v) - 5) (e_amount x)) :: map (fun p => told (fst p) (snd p)) (combine xs (map key_of xs)))).
  { apply (f_equal (fun r => match r with Ok (o, _, _) => el_metas o | UB => None end)) in Q. cbv beta iota in Q. rewrite <- Q. reflexivity. }
  rewrite EE in E. injection E as <-. constructor; [cbn; unfold key_fine; discriminate|].
  clear. induction xs as [|y ys IH]; cbn [map combine]; [constructor|]. constructor; [unfold key_fine; cbn; discriminate|exact IH].
Qed.
