From Verif Require Import Base BaseFacts Encoders EncodersFacts Primitive Types Conditions Spec_Types.
From Coq Require Import ZifyBool ZifyNat ZifyN.
Ltac Zify.zify_post_hook ::= Z.div_mod_to_equations.

Lemma repeatN_repeat {A} (x : A) n : repeatN x n = repeat x n.
Proof. induction n; cbn; congruence. Qed.
Lemma repeatN_length {A} (x : A) n : length (repeatN x n) = n.
Proof. rewrite repeatN_repeat. apply repeat_length. Qed.

Lemma mapM_Forall2_iff {A B} (f : A -> res B) l r : mapM f l = Ok r <-> Forall2 (fun a b => f a = Ok b) l r.
Proof.
  revert r; induction l as [|a l IH]; intros r; cbn [mapM]; split.
  - intros E; injection E as <-; constructor.
  - intros F; inversion F; reflexivity.
  - intros E. apply bind_ok in E as (b & Eb & E). apply bind_ok in E as (bs & Ebs & E).
    injection E as <-. constructor; [exact Eb | apply IH; exact Ebs].
  - intros F; inversion F as [|? b ? bs Hb Hbs]; subst. rewrite Hb. cbn [bind].
    apply IH in Hbs. rewrite Hbs. reflexivity.
Qed.

(** ** Fixed sizes *)
Lemma hash_size_ok b : bd_size_ok (Some 32) b = true <-> b = [] \/ length b = 32%nat.
Proof.
  unfold bd_size_ok, lenN. split.
  - intros E. destruct b; [left; reflexivity | right]. cbn [length] in *. lia.
  - intros [-> |E]; [reflexivity | lia].
Qed.

Lemma hash_new_eq v : hash_new v = do b <- bd_norm KHex v; do _ <- guard (bd_size_ok (Some 32) b) ValueError; Ok b.
Proof.
  unfold hash_new, bd_new. change (strkind_of (Some (s2b "hex"))) with (@Ok strkind KHex). cbn [bind].
  change (guard (0 <=? 32)%Z TypeError) with (@Ok unit tt). cbn [bind]. unfold bd_set.
  change (bd_kind (bd_enc (mkbd (Some (Z.to_N 32)) (Some (s2b "hex")) []))) with KHex.
  cbn [bd_size bd_enc]. change (Z.to_N 32) with 32.
  destruct (bd_norm KHex v) as [b|e]; cbn [bind]; [|reflexivity].
  destruct (guard (bd_size_ok (Some 32) b) ValueError); reflexivity.
Qed.

Lemma hash_new_ok v b : hash_new v = Ok b <-> bd_norm KHex v = Ok b /\ (b = [] \/ length b = 32%nat).
Proof.
  rewrite hash_new_eq. split.
  - intros E. apply bind_ok in E as (x & Ex & E). apply bind_ok in E as (u & Eu & E).
    injection E as ->. apply guard_ok, hash_size_ok in Eu. auto.
  - intros [E S]. rewrite E. cbn [bind]. apply hash_size_ok in S. rewrite S. reflexivity.
Qed.

Lemma hash_str_full h : hash32 h -> hash_str h = hex h.
Proof.
  intros [L _]. unfold hash_str. destruct (hex h) eqn:E; [|reflexivity].
  apply (f_equal (@length N)) in E. rewrite hex_length in E. cbn in E. lia.
Qed.
Lemma hash_new_hex h : hash32 h -> hash_new (BVStr (hex h)) = Ok h.
Proof.
  intros [L W]. apply hash_new_ok. cbn [bd_norm from_str]. rewrite unhex_hex by exact W. auto.
Qed.

(** ** Type byte *)
Lemma hex1 t : (0 <= t < 10)%Z -> hex [Z.to_N t] = [48; Z.to_N t + 48].
Proof.
  intros Ht. cbn [hex]. unfold hexdig.
  replace (Z.to_N t / 16) with 0 by lia. replace (Z.to_N t mod 16) with (Z.to_N t) by lia.
  change (0 <? 10) with true. cbn iota. replace (Z.to_N t <? 10) with true by lia.
  f_equal. f_equal. lia.
Qed.
Lemma py_int_two t : (0 <= t < 10)%Z -> py_int [48; Z.to_N t + 48] = Ok t.
Proof.
  intros Ht. assert (E : exists n, (n < 10)%nat /\ t = Z.of_nat n) by (exists (Z.to_nat t); lia).
  destruct E as (n & Hn & ->). do 10 (destruct n as [|n]; [reflexivity|]). lia.
Qed.

Lemma riv_int1_ok t : (0 <= t < 256)%Z -> riv_int 1 t = Ok [Z.to_N t].
Proof.
  intros Ht. unfold riv_int, r_of_w, riv_add_intw, int_le.
  replace (t <? 0)%Z with false by lia. change (limit_of 1) with 255%Z. replace (255 <? t)%Z with false by lia.
  cbn [snd fst wok le]. f_equal. f_equal. lia.
Qed.
Lemma sia_byte_ok t : (0 <= t < 256)%Z -> sia_byte t = Ok [Z.to_N t].
Proof.
  intros Ht. unfold sia_byte, r_of_w, sia_add_byte.
  replace ((t <? 0) || (255 <? t))%Z with false by lia.
  cbn [snd fst wok le]. f_equal. f_equal. lia.
Qed.
Lemma riv_int1_inv t b : riv_int 1 t = Ok b -> (0 <= t < 256)%Z /\ b = [Z.to_N t].
Proof.
  intros E. assert (Ht : (0 <= t < 256)%Z).
  { unfold riv_int, r_of_w, riv_add_intw, int_le in E. change (limit_of 1) with 255%Z in E.
    destruct (t <? 0)%Z eqn:?; [discriminate|]. destruct (255 <? t)%Z eqn:?; [discriminate|]. lia. }
  split; [exact Ht|]. rewrite riv_int1_ok in E by exact Ht. injection E as <-. reflexivity.
Qed.
Lemma sia_byte_inv t b : sia_byte t = Ok b -> (0 <= t < 256)%Z /\ b = [Z.to_N t].
Proof.
  intros E. assert (Ht : (0 <= t < 256)%Z).
  { unfold sia_byte, r_of_w, sia_add_byte in E. destruct ((t <? 0) || (255 <? t))%Z eqn:?; [discriminate|]. lia. }
  split; [exact Ht|]. rewrite sia_byte_ok in E by exact Ht. injection E as <-. reflexivity.
Qed.

Lemma uh_riv_ok u : (0 <= uh_type u < 256)%Z -> uh_riv u = Ok (Z.to_N (uh_type u) :: uh_hash u).
Proof. intros Ht. unfold uh_riv. rewrite riv_int1_ok by exact Ht. reflexivity. Qed.
Lemma uh_sia_ok u : (0 <= uh_type u < 256)%Z -> uh_sia u = Ok (Z.to_N (uh_type u) :: uh_hash u).
Proof. intros Ht. unfold uh_sia. rewrite sia_byte_ok by exact Ht. reflexivity. Qed.
Lemma uh_riv_inv u b : uh_riv u = Ok b -> (0 <= uh_type u < 256)%Z /\ b = Z.to_N (uh_type u) :: uh_hash u.
Proof.
  unfold uh_riv. intros E. apply rapp_ok in E as (x & y & Ex & Ey & ->). injection Ey as <-.
  apply riv_int1_inv in Ex as [Ht ->]. auto.
Qed.
Lemma uh_sia_inv u b : uh_sia u = Ok b -> (0 <= uh_type u < 256)%Z /\ b = Z.to_N (uh_type u) :: uh_hash u.
Proof.
  unfold uh_sia. intros E. apply rapp_ok in E as (x & y & Ex & Ey & ->). injection Ey as <-.
  apply sia_byte_inv in Ex as [Ht ->]. auto.
Qed.
Lemma uh_eta u v : uh_type u = uh_type v -> uh_hash u = uh_hash v -> u = v.
Proof. destruct u, v; cbn; congruence. Qed.
Lemma uh_riv_uniq : uniq full_uh uh_riv.
Proof.
  apply uniq_fixed with (n := 33%nat).
  - intros u b [_ [L _]] E. apply uh_riv_inv in E as [_ ->]. cbn [length]. lia.
  - intros u v b _ _ Eu Ev. apply uh_riv_inv in Eu as [Hu ->]. apply uh_riv_inv in Ev as [Hv E].
    injection E as E1 E2. apply uh_eta; [lia | exact E2].
Qed.
Lemma uh_sia_uniq : uniq full_uh uh_sia.
Proof.
  apply uniq_fixed with (n := 33%nat).
  - intros u b [_ [L _]] E. apply uh_sia_inv in E as [_ ->]. cbn [length]. lia.
  - intros u v b _ _ Eu Ev. apply uh_sia_inv in Eu as [Hu ->]. apply uh_sia_inv in Ev as [Hv E].
    injection E as E1 E2. apply uh_eta; [lia | exact E2].
Qed.

(** ** Address text *)
Lemma checksum_len H u c : hash_ok H -> uh_checksum H u = Ok c -> length (firstn 6 c) = 6%nat /\ wf_bytes (firstn 6 c).
Proof.
  intros HH. unfold uh_checksum. destruct (uh_type u =? 0)%Z.
  - intros E; injection E as <-. split; [reflexivity | repeat constructor].
  - intros E. apply bind_ok in E as (d & _ & E). injection E as <-.
    destruct (HH d) as [L W]. rewrite firstn_length. split; [lia|].
    apply Forall_forall. intros x Hx. rewrite <- (firstn_skipn 6 (H d)) in W.
    unfold wf_bytes in W. rewrite Forall_app in W. destruct W as [W _].
    rewrite Forall_forall in W. apply W; exact Hx.
Qed.

Lemma uh_str_ok H u : hash_ok H -> (0 <= uh_type u < 256)%Z ->
  exists c, uh_checksum H u = Ok c /\
    uh_str H u = Ok (hex [Z.to_N (uh_type u)] ++ hash_str (uh_hash u) ++ hex (firstn 6 c)).
Proof.
  intros HH Ht. unfold uh_str, uh_checksum. destruct (uh_type u =? 0)%Z eqn:E0.
  - eexists; split; [reflexivity|]. cbn [bind].
    replace ((0 <=? uh_type u) && (uh_type u <? 256))%Z with true by lia. reflexivity.
  - rewrite uh_riv_ok by exact Ht. cbn [bind]. eexists; split; [reflexivity|].
    replace ((0 <=? uh_type u) && (uh_type u <? 256))%Z with true by lia. reflexivity.
Qed.

Lemma hash_str_length h : hash32 h \/ h = [] -> length (hash_str h) = 64%nat.
Proof.
  intros [Hh| ->]; [|reflexivity]. rewrite hash_str_full by exact Hh. rewrite hex_length. destruct Hh; lia.
Qed.

Lemma uh_str_length H u s : hash_ok H -> hash32 (uh_hash u) \/ uh_hash u = [] -> uh_str H u = Ok s -> length s = 78%nat.
Proof.
  intros HH Hh E. unfold uh_str in E. apply bind_ok in E as (c & Ec & E). apply bind_ok in E as (x & _ & E).
  apply ok_inj in E; subst s. rewrite !app_length. rewrite hash_str_length by exact Hh.
  destruct (checksum_len _ _ _ HH Ec) as [L _]. rewrite !hex_length, L. reflexivity.
Qed.

Lemma uh_parse_pieces H t h c u :
  hash_ok H -> (0 <= t < 10)%Z -> hash32 h -> u = mkuh t h -> (t = 0%Z -> h = repeatN 0 32) ->
  uh_checksum H u = Ok c ->
  uh_parse H (hex [Z.to_N t] ++ hash_str h ++ hex (firstn 6 c)) = Ok u.
Proof.
  intros HH Ht Hh -> Hz Ec. destruct (checksum_len _ _ _ HH Ec) as [L W].
  pose proof (hash_str_length h (or_introl Hh)) as LH.
  assert (L1 : length (hex [Z.to_N t]) = 2%nat) by reflexivity.
  unfold uh_parse.
  replace (length (hex [Z.to_N t] ++ hash_str h ++ hex (firstn 6 c)) =? 78)%nat with true
    by (symmetry; apply Nat.eqb_eq; rewrite !app_length, LH, L1, hex_length, L; reflexivity).
  cbn [guard bind].
  rewrite firstn_app_exact by (symmetry; exact L1).
  rewrite hex1 by exact Ht. rewrite py_int_two by exact Ht. cbn [bind].
  rewrite <- (hex1 t) by exact Ht.
  rewrite (skipn_app_exact (hex [Z.to_N t])) by (symmetry; exact L1).
  rewrite firstn_app_exact by (symmetry; exact LH).
  rewrite hash_str_full in LH |- * by exact Hh. rewrite hash_new_hex by exact Hh. cbn [bind].
  destruct (t =? 0)%Z eqn:E0.
  - rewrite Hz by lia. rewrite listN_eqb_refl. reflexivity.
  - rewrite Ec. cbn [bind].
    rewrite (app_assoc (hex [Z.to_N t])), skipn_app_exact by (rewrite app_length, LH, L1; reflexivity).
    rewrite listN_eqb_refl. reflexivity.
Qed.

Lemma uh_round_trip H u : hash_ok H -> (0 <= uh_type u < 10)%Z -> hash32 (uh_hash u) ->
  (uh_type u = 0%Z -> uh_hash u = zeros 32) ->
  exists s, uh_str H u = Ok s /\ length s = 78%nat /\ uh_parse H s = Ok u.
Proof.
  intros HH Ht Hh Hz. destruct (uh_str_ok H u HH ltac:(lia)) as (c & Ec & Es).
  eexists; split; [exact Es|]. split; [eapply uh_str_length; eauto|].
  apply uh_parse_pieces; auto. destruct u; reflexivity.
Qed.

Lemma address_round_trip H u : hash_ok H -> address u ->
  exists s, uh_str H u = Ok s /\ length s = 78%nat /\ uh_parse H s = Ok u.
Proof. intros HH (Ht & Hh & Hz). apply uh_round_trip; auto. lia. Qed.

Lemma uh_parse_sound H s u : uh_parse H s = Ok u ->
  length s = 78%nat /\ py_int (firstn 2 s) = Ok (uh_type u) /\
  unhex (firstn 64 (skipn 2 s)) = Ok (uh_hash u) /\ (uh_hash u = [] \/ length (uh_hash u) = 32%nat) /\
  (uh_type u = 0%Z /\ uh_hash u = repeatN 0 32 \/
   (0 < uh_type u < 256)%Z /\ skipn 66 s = checksum_text H (Z.to_N (uh_type u)) (uh_hash u)).
Proof.
  unfold uh_parse. intros E. apply bind_ok in E as (x & Ex & E). apply guard_ok in Ex.
  apply bind_ok in E as (t & Et & E). apply bind_ok in E as (h & Eh & E).
  apply hash_new_ok in Eh as [Eh Lh]. cbn [bd_norm from_str] in Eh.
  destruct (t =? 0)%Z eqn:E0.
  - apply bind_ok in E as (y & Ey & E). injection E as <-. apply guard_ok, listN_eqb_eq in Ey. cbn [uh_type uh_hash].
    repeat split; auto; try lia. left; split; [lia | exact Ey].
  - apply bind_ok in E as (c & Ec & E). apply bind_ok in E as (y & Ey & E). injection E as <-.
    apply guard_ok, listN_eqb_eq in Ey. cbn [uh_type uh_hash].
    repeat split; auto; try lia. right. unfold uh_checksum in Ec. cbn [uh_type] in Ec. rewrite E0 in Ec.
    apply bind_ok in Ec as (d & Ed & Ec). injection Ec as <-. apply uh_riv_inv in Ed as [Ht ->].
    cbn [uh_type uh_hash] in *. split; [lia|]. symmetry. exact Ey.
Qed.

Lemma uh_parse_complete H s t h : length s = 78%nat -> py_int (firstn 2 s) = Ok t ->
  unhex (firstn 64 (skipn 2 s)) = Ok h -> (h = [] \/ length h = 32%nat) -> (0 < t < 256)%Z ->
  skipn 66 s = checksum_text H (Z.to_N t) h -> uh_parse H s = Ok (mkuh t h).
Proof.
  intros L Et Eh Lh Ht Ec. unfold uh_parse. rewrite L. cbn [Nat.eqb guard bind]. rewrite Et. cbn [bind].
  assert (E : hash_new (BVStr (firstn 64 (skipn 2 s))) = Ok h) by (apply hash_new_ok; auto).
  rewrite E. cbn [bind]. replace (t =? 0)%Z with false by lia.
  unfold uh_checksum. cbn [uh_type]. replace (t =? 0)%Z with false by lia.
  rewrite uh_riv_ok by (cbn; lia). cbn [bind uh_type uh_hash]. rewrite Ec. unfold checksum_text.
  rewrite listN_eqb_refl. reflexivity.
Qed.

Lemma uh_parse_checksum H s s' u : uh_parse H s = Ok u -> uh_type u <> 0%Z ->
  firstn 66 s' = firstn 66 s -> s' <> s -> exists e, uh_parse H s' = Err e.
Proof.
  intros E N0 P D. destruct (uh_parse H s') as [u'|e] eqn:E'; [exfalso | eauto].
  apply uh_parse_sound in E as (L & Et & Eh & _ & C). apply uh_parse_sound in E' as (L' & Et' & Eh' & _ & C').
  assert (P2 : firstn 2 s' = firstn 2 s).
  { apply (f_equal (firstn 2)) in P. rewrite !firstn_firstn in P. exact P. }
  assert (P3 : firstn 64 (skipn 2 s') = firstn 64 (skipn 2 s)).
  { apply (f_equal (skipn 2)) in P. rewrite !skipn_firstn_comm in P. exact P. }
  rewrite P2 in Et'. rewrite P3 in Eh'. rewrite Et in Et'. rewrite Eh in Eh'.
  injection Et' as Et'. injection Eh' as Eh'.
  destruct C as [[C _]|[_ C]]; [lia|]. destruct C' as [[C' _]|[_ C']]; [lia|].
  apply D. rewrite <- (firstn_skipn 66 s), <- (firstn_skipn 66 s'). rewrite P, C, C'. congruence.
Qed.

(** Printing distinguishes full addresses. *)
Lemma uh_str_inj H u v s : hash_ok H -> full_uh u -> full_uh v -> uh_str H u = Ok s -> uh_str H v = Ok s -> u = v.
Proof.
  intros HH [Tu Hu] [Tv Hv] Eu Ev.
  destruct (uh_str_ok H u HH Tu) as (c & Ec & Eu'). destruct (uh_str_ok H v HH Tv) as (d & Ed & Ev').
  rewrite Eu' in Eu. rewrite Ev' in Ev. rewrite <- Ev in Eu. apply ok_inj in Eu; rename Eu into E.
  rewrite !hash_str_full in E by assumption.
  apply app_inj_len in E as [E1 E2]; [|reflexivity].
  apply app_inj_len in E2 as [E2 _]; [|rewrite !hex_length; destruct Hu, Hv; lia].
  apply uh_eta.
  - assert (E3 : [Z.to_N (uh_type u)] = [Z.to_N (uh_type v)]).
    { apply hex_inj; [repeat constructor; lia .. | exact E1]. }
    injection E3 as E3. lia.
  - apply hex_inj; [apply Hu | apply Hv | exact E2].
Qed.

Lemma uh_eqb_eq a b : uh_eqb a b = true <-> a = b.
Proof.
  unfold uh_eqb. rewrite andb_true_iff, listN_eqb_eq. split.
  - intros [E1 E2]. apply uh_eta; [lia | exact E2].
  - intros ->. split; [lia | reflexivity].
Qed.
