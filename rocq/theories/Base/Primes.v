(** The field and group orders of secp256k1 are prime: Pocklington certificates, base 2. *)
From Coq Require Import ZArith Znumtheory List Lia.
From Verif Require Import Base.Fermat.
Import ListNotations.
Open Scope Z_scope.

Ltac trial := apply prime_trial; [reflexivity|vm_compute; reflexivity|reflexivity].

Lemma prime_1871 : prime 1871. Proof. trial. Qed.
Lemma prime_1627771 : prime 1627771.
Proof.
  assert (C0 : pock_check (rmod 1627771) 1627771 1871 589711 = true) by (vm_compute; reflexivity).
  pose proof (pock_check_spec (rmod 1627771) 1627771 1871 589711 (fun x => rmod_ok 1627771 x ltac:(lia)) ltac:(lia) prime_1871 C0) as H0.
  apply (pock_end 1627771 (1871)); [lia|lia|reflexivity|].
  intros r R1 R2.
  exact (H0 r R1 R2).
Qed.
Lemma prime_297159362677 : prime 297159362677.
Proof.
  assert (C0 : pock_check (rmod 297159362677) 297159362677 1627771 44169280672 = true) by (vm_compute; reflexivity).
  pose proof (pock_check_spec (rmod 297159362677) 297159362677 1627771 44169280672 (fun x => rmod_ok 297159362677 x ltac:(lia)) ltac:(lia) prime_1627771 C0) as H0.
  apply (pock_end 297159362677 (1627771)); [lia|lia|reflexivity|].
  intros r R1 R2.
  exact (H0 r R1 R2).
Qed.
Lemma prime_1409 : prime 1409. Proof. trial. Qed.
Lemma prime_28181 : prime 28181.
Proof.
  assert (C0 : pock_check (rmod 28181) 28181 1409 16200 = true) by (vm_compute; reflexivity).
  pose proof (pock_check_spec (rmod 28181) 28181 1409 16200 (fun x => rmod_ok 28181 x ltac:(lia)) ltac:(lia) prime_1409 C0) as H0.
  apply (pock_end 28181 (1409)); [lia|lia|reflexivity|].
  intros r R1 R2.
  exact (H0 r R1 R2).
Qed.
Lemma prime_545358713 : prime 545358713.
Proof.
  assert (C0 : pock_check (rmod 545358713) 545358713 28181 160797069 = true) by (vm_compute; reflexivity).
  pose proof (pock_check_spec (rmod 545358713) 545358713 28181 160797069 (fun x => rmod_ok 545358713 x ltac:(lia)) ltac:(lia) prime_28181 C0) as H0.
  apply (pock_end 545358713 (28181)); [lia|lia|reflexivity|].
  intros r R1 R2.
  exact (H0 r R1 R2).
Qed.
Lemma prime_29047611873442575647497758179 : prime 29047611873442575647497758179.
Proof.
  assert (C0 : pock_check (rmod 29047611873442575647497758179) 29047611873442575647497758179 297159362677 7881196461825673388358983901 = true) by (vm_compute; reflexivity).
  pose proof (pock_check_spec (rmod 29047611873442575647497758179) 29047611873442575647497758179 297159362677 7881196461825673388358983901 (fun x => rmod_ok 29047611873442575647497758179 x ltac:(lia)) ltac:(lia) prime_297159362677 C0) as H0.
  assert (C1 : pock_check (rmod 29047611873442575647497758179) 29047611873442575647497758179 545358713 9643653164146849936640551407 = true) by (vm_compute; reflexivity).
  pose proof (pock_check_spec (rmod 29047611873442575647497758179) 29047611873442575647497758179 545358713 9643653164146849936640551407 (fun x => rmod_ok 29047611873442575647497758179 x ltac:(lia)) ltac:(lia) prime_545358713 C1) as H1.
  apply (pock_end 29047611873442575647497758179 (297159362677*545358713)); [lia|lia|reflexivity|].
  intros r R1 R2.
  apply divide_two; [exact prime_297159362677|exact prime_545358713|lia|exact (H0 r R1 R2)|exact (H1 r R1 R2)].
Qed.
Lemma prime_341948486974166000522343609283189 : prime 341948486974166000522343609283189.
Proof.
  assert (C0 : pock_check (rmod 341948486974166000522343609283189) 341948486974166000522343609283189 29047611873442575647497758179 230912421032721991545077801069578 = true) by (vm_compute; reflexivity).
  pose proof (pock_check_spec (rmod 341948486974166000522343609283189) 341948486974166000522343609283189 29047611873442575647497758179 230912421032721991545077801069578 (fun x => rmod_ok 341948486974166000522343609283189 x ltac:(lia)) ltac:(lia) prime_29047611873442575647497758179 C0) as H0.
  apply (pock_end 341948486974166000522343609283189 (29047611873442575647497758179)); [lia|lia|reflexivity|].
  intros r R1 R2.
  exact (H0 r R1 R2).
Qed.
Lemma prime_41 : prime 41. Proof. trial. Qed.
Lemma prime_19 : prime 19. Proof. trial. Qed.
Lemma prime_9349 : prime 9349.
Proof.
  assert (C0 : pock_check (rmod 9349) 9349 41 7422 = true) by (vm_compute; reflexivity).
  pose proof (pock_check_spec (rmod 9349) 9349 41 7422 (fun x => rmod_ok 9349 x ltac:(lia)) ltac:(lia) prime_41 C0) as H0.
  assert (C1 : pock_check (rmod 9349) 9349 19 1444 = true) by (vm_compute; reflexivity).
  pose proof (pock_check_spec (rmod 9349) 9349 19 1444 (fun x => rmod_ok 9349 x ltac:(lia)) ltac:(lia) prime_19 C1) as H1.
  apply (pock_end 9349 (41*19)); [lia|lia|reflexivity|].
  intros r R1 R2.
  apply divide_two; [exact prime_41|exact prime_19|lia|exact (H0 r R1 R2)|exact (H1 r R1 R2)].
Qed.
Lemma prime_44706919 : prime 44706919.
Proof.
  assert (C0 : pock_check (rmod 44706919) 44706919 9349 35850462 = true) by (vm_compute; reflexivity).
  pose proof (pock_check_spec (rmod 44706919) 44706919 9349 35850462 (fun x => rmod_ok 44706919 x ltac:(lia)) ltac:(lia) prime_9349 C0) as H0.
  apply (pock_end 44706919 (9349)); [lia|lia|reflexivity|].
  intros r R1 R2.
  exact (H0 r R1 R2).
Qed.
Lemma prime_113 : prime 113. Proof. trial. Qed.
Lemma prime_120233 : prime 120233.
Proof.
  assert (C0 : pock_check (rmod 120233) 120233 113 118505 = true) by (vm_compute; reflexivity).
  pose proof (pock_check_spec (rmod 120233) 120233 113 118505 (fun x => rmod_ok 120233 x ltac:(lia)) ltac:(lia) prime_113 C0) as H0.
  assert (C1 : pock_check (rmod 120233) 120233 19 83923 = true) by (vm_compute; reflexivity).
  pose proof (pock_check_spec (rmod 120233) 120233 19 83923 (fun x => rmod_ok 120233 x ltac:(lia)) ltac:(lia) prime_19 C1) as H1.
  apply (pock_end 120233 (113*19)); [lia|lia|reflexivity|].
  intros r R1 R2.
  apply divide_two; [exact prime_113|exact prime_19|lia|exact (H0 r R1 R2)|exact (H1 r R1 R2)].
Qed.
Lemma prime_174723607534414371449 : prime 174723607534414371449.
Proof.
  assert (C0 : pock_check (rmod 174723607534414371449) 174723607534414371449 44706919 97513711501333925610 = true) by (vm_compute; reflexivity).
  pose proof (pock_check_spec (rmod 174723607534414371449) 174723607534414371449 44706919 97513711501333925610 (fun x => rmod_ok 174723607534414371449 x ltac:(lia)) ltac:(lia) prime_44706919 C0) as H0.
  assert (C1 : pock_check (rmod 174723607534414371449) 174723607534414371449 120233 14283963398578376782 = true) by (vm_compute; reflexivity).
  pose proof (pock_check_spec (rmod 174723607534414371449) 174723607534414371449 120233 14283963398578376782 (fun x => rmod_ok 174723607534414371449 x ltac:(lia)) ltac:(lia) prime_120233 C1) as H1.
  apply (pock_end 174723607534414371449 (44706919*120233)); [lia|lia|reflexivity|].
  intros r R1 R2.
  apply divide_two; [exact prime_44706919|exact prime_120233|lia|exact (H0 r R1 R2)|exact (H1 r R1 R2)].
Qed.
Lemma prime_n256 : prime 115792089237316195423570985008687907852837564279074904382605163141518161494337.
Proof.
  assert (C0 : pock_check (fold3 256 432420386565659656852420866394968145599) 115792089237316195423570985008687907852837564279074904382605163141518161494337 341948486974166000522343609283189 57112704531168816596589732607440886458891436705097388389849158079043094771009 = true) by (vm_compute; reflexivity).
  pose proof (pock_check_spec (fold3 256 432420386565659656852420866394968145599) 115792089237316195423570985008687907852837564279074904382605163141518161494337 341948486974166000522343609283189 57112704531168816596589732607440886458891436705097388389849158079043094771009 (fun x => fold3_ok 256 432420386565659656852420866394968145599 x ltac:(lia)) ltac:(lia) prime_341948486974166000522343609283189 C0) as H0.
  assert (C1 : pock_check (fold3 256 432420386565659656852420866394968145599) 115792089237316195423570985008687907852837564279074904382605163141518161494337 174723607534414371449 82825258999207434266669200773575514537865192807825383256844795767869923999078 = true) by (vm_compute; reflexivity).
  pose proof (pock_check_spec (fold3 256 432420386565659656852420866394968145599) 115792089237316195423570985008687907852837564279074904382605163141518161494337 174723607534414371449 82825258999207434266669200773575514537865192807825383256844795767869923999078 (fun x => fold3_ok 256 432420386565659656852420866394968145599 x ltac:(lia)) ltac:(lia) prime_174723607534414371449 C1) as H1.
  apply (pock_end 115792089237316195423570985008687907852837564279074904382605163141518161494337 (341948486974166000522343609283189*174723607534414371449)); [lia|lia|reflexivity|].
  intros r R1 R2.
  apply divide_two; [exact prime_341948486974166000522343609283189|exact prime_174723607534414371449|lia|exact (H0 r R1 R2)|exact (H1 r R1 R2)].
Qed.
Lemma prime_53 : prime 53. Proof. trial. Qed.
Lemma prime_29 : prime 29. Proof. trial. Qed.
Lemma prime_7 : prime 7. Proof. trial. Qed.
Lemma prime_107590001 : prime 107590001.
Proof.
  assert (C0 : pock_check (rmod 107590001) 107590001 53 75712971 = true) by (vm_compute; reflexivity).
  pose proof (pock_check_spec (rmod 107590001) 107590001 53 75712971 (fun x => rmod_ok 107590001 x ltac:(lia)) ltac:(lia) prime_53 C0) as H0.
  assert (C1 : pock_check (rmod 107590001) 107590001 29 100085220 = true) by (vm_compute; reflexivity).
  pose proof (pock_check_spec (rmod 107590001) 107590001 29 100085220 (fun x => rmod_ok 107590001 x ltac:(lia)) ltac:(lia) prime_29 C1) as H1.
  assert (C2 : pock_check (rmod 107590001) 107590001 7 4923006 = true) by (vm_compute; reflexivity).
  pose proof (pock_check_spec (rmod 107590001) 107590001 7 4923006 (fun x => rmod_ok 107590001 x ltac:(lia)) ltac:(lia) prime_7 C2) as H2.
  apply (pock_end 107590001 (53*29*7)); [lia|lia|reflexivity|].
  intros r R1 R2.
  apply divide_three; [exact prime_53|exact prime_29|exact prime_7|lia|lia|lia|exact (H0 r R1 R2)|exact (H1 r R1 R2)|exact (H2 r R1 R2)].
Qed.
Lemma prime_419 : prime 419. Proof. trial. Qed.
Lemma prime_20113 : prime 20113.
Proof.
  assert (C0 : pock_check (rmod 20113) 20113 419 17111 = true) by (vm_compute; reflexivity).
  pose proof (pock_check_spec (rmod 20113) 20113 419 17111 (fun x => rmod_ok 20113 x ltac:(lia)) ltac:(lia) prime_419 C0) as H0.
  apply (pock_end 20113 (419)); [lia|lia|reflexivity|].
  intros r R1 R2.
  exact (H0 r R1 R2).
Qed.
Lemma prime_1206781 : prime 1206781.
Proof.
  assert (C0 : pock_check (rmod 1206781) 1206781 20113 709359 = true) by (vm_compute; reflexivity).
  pose proof (pock_check_spec (rmod 1206781) 1206781 20113 709359 (fun x => rmod_ok 1206781 x ltac:(lia)) ltac:(lia) prime_20113 C0) as H0.
  apply (pock_end 1206781 (20113)); [lia|lia|reflexivity|].
  intros r R1 R2.
  exact (H0 r R1 R2).
Qed.
Lemma prime_7240687 : prime 7240687.
Proof.
  assert (C0 : pock_check (rmod 7240687) 7240687 1206781 5746577 = true) by (vm_compute; reflexivity).
  pose proof (pock_check_spec (rmod 7240687) 7240687 1206781 5746577 (fun x => rmod_ok 7240687 x ltac:(lia)) ltac:(lia) prime_1206781 C0) as H0.
  apply (pock_end 7240687 (1206781)); [lia|lia|reflexivity|].
  intros r R1 R2.
  exact (H0 r R1 R2).
Qed.
Lemma prime_239 : prime 239. Proof. trial. Qed.
Lemma prime_101 : prime 101. Proof. trial. Qed.
Lemma prime_96557 : prime 96557.
Proof.
  assert (C0 : pock_check (rmod 96557) 96557 239 8329 = true) by (vm_compute; reflexivity).
  pose proof (pock_check_spec (rmod 96557) 96557 239 8329 (fun x => rmod_ok 96557 x ltac:(lia)) ltac:(lia) prime_239 C0) as H0.
  assert (C1 : pock_check (rmod 96557) 96557 101 50445 = true) by (vm_compute; reflexivity).
  pose proof (pock_check_spec (rmod 96557) 96557 101 50445 (fun x => rmod_ok 96557 x ltac:(lia)) ltac:(lia) prime_101 C1) as H1.
  apply (pock_end 96557 (239*101)); [lia|lia|reflexivity|].
  intros r R1 R2.
  apply divide_two; [exact prime_239|exact prime_101|lia|exact (H0 r R1 R2)|exact (H1 r R1 R2)].
Qed.
Lemma prime_255515944373312847190720520512484175977 : prime 255515944373312847190720520512484175977.
Proof.
  assert (C0 : pock_check (rmod 255515944373312847190720520512484175977) 255515944373312847190720520512484175977 107590001 235081362755335172132203715226758066727 = true) by (vm_compute; reflexivity).
  pose proof (pock_check_spec (rmod 255515944373312847190720520512484175977) 255515944373312847190720520512484175977 107590001 235081362755335172132203715226758066727 (fun x => rmod_ok 255515944373312847190720520512484175977 x ltac:(lia)) ltac:(lia) prime_107590001 C0) as H0.
  assert (C1 : pock_check (rmod 255515944373312847190720520512484175977) 255515944373312847190720520512484175977 7240687 175544394104025381149509263364095140941 = true) by (vm_compute; reflexivity).
  pose proof (pock_check_spec (rmod 255515944373312847190720520512484175977) 255515944373312847190720520512484175977 7240687 175544394104025381149509263364095140941 (fun x => rmod_ok 255515944373312847190720520512484175977 x ltac:(lia)) ltac:(lia) prime_7240687 C1) as H1.
  assert (C2 : pock_check (rmod 255515944373312847190720520512484175977) 255515944373312847190720520512484175977 96557 52333299885033245219942804006191421971 = true) by (vm_compute; reflexivity).
  pose proof (pock_check_spec (rmod 255515944373312847190720520512484175977) 255515944373312847190720520512484175977 96557 52333299885033245219942804006191421971 (fun x => rmod_ok 255515944373312847190720520512484175977 x ltac:(lia)) ltac:(lia) prime_96557 C2) as H2.
  apply (pock_end 255515944373312847190720520512484175977 (107590001*7240687*96557)); [lia|lia|reflexivity|].
  intros r R1 R2.
  apply divide_three; [exact prime_107590001|exact prime_7240687|exact prime_96557|lia|lia|lia|exact (H0 r R1 R2)|exact (H1 r R1 R2)|exact (H2 r R1 R2)].
Qed.
Lemma prime_205115282021455665897114700593932402728804164701536103180137503955397371 : prime 205115282021455665897114700593932402728804164701536103180137503955397371.
Proof.
  assert (C0 : pock_check (rmod 205115282021455665897114700593932402728804164701536103180137503955397371) 205115282021455665897114700593932402728804164701536103180137503955397371 255515944373312847190720520512484175977 81475874003799270243122483189086420723726815346591292526890606927317739 = true) by (vm_compute; reflexivity).
  pose proof (pock_check_spec (rmod 205115282021455665897114700593932402728804164701536103180137503955397371) 205115282021455665897114700593932402728804164701536103180137503955397371 255515944373312847190720520512484175977 81475874003799270243122483189086420723726815346591292526890606927317739 (fun x => rmod_ok 205115282021455665897114700593932402728804164701536103180137503955397371 x ltac:(lia)) ltac:(lia) prime_255515944373312847190720520512484175977 C0) as H0.
  apply (pock_end 205115282021455665897114700593932402728804164701536103180137503955397371 (255515944373312847190720520512484175977)); [lia|lia|reflexivity|].
  intros r R1 R2.
  exact (H0 r R1 R2).
Qed.
Lemma prime_p256 : prime 115792089237316195423570985008687907853269984665640564039457584007908834671663.
Proof.
  assert (C0 : pock_check (fold3 256 4294968273) 115792089237316195423570985008687907853269984665640564039457584007908834671663 205115282021455665897114700593932402728804164701536103180137503955397371 38738227534097492269493948901333532538630784921480042032654553727346127695815 = true) by (vm_compute; reflexivity).
  pose proof (pock_check_spec (fold3 256 4294968273) 115792089237316195423570985008687907853269984665640564039457584007908834671663 205115282021455665897114700593932402728804164701536103180137503955397371 38738227534097492269493948901333532538630784921480042032654553727346127695815 (fun x => fold3_ok 256 4294968273 x ltac:(lia)) ltac:(lia) prime_205115282021455665897114700593932402728804164701536103180137503955397371 C0) as H0.
  apply (pock_end 115792089237316195423570985008687907853269984665640564039457584007908834671663 (205115282021455665897114700593932402728804164701536103180137503955397371)); [lia|lia|reflexivity|].
  intros r R1 R2.
  exact (H0 r R1 R2).
Qed.
