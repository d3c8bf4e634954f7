(** Property C43 for addresses given as a number. *)
From Verif Require Import Base BaseFacts Encoders EncodersFacts Primitive ThreeBotTypes Spec_ThreeBot.
From Coq Require Import ZifyBool ZifyNat ZifyN.
Ltac Zify.zify_post_hook ::= Z.div_mod_to_equations.

Lemma le_app a b v : le (a + b) v = le a v ++ le b (v / 256 ^ N.of_nat a).
Proof.
  revert v. induction a as [|a IH]; intro v; [cbn [Nat.add le app]; change (256 ^ N.of_nat 0) with 1; rewrite N.div_1_r; reflexivity|].
  cbn [Nat.add]. rewrite !le_S, IH. cbn [app]. do 3 f_equal. rewrite N.div_div by (try discriminate; apply N.pow_nonzero; discriminate). f_equal. rewrite Nat2N.inj_succ, N.pow_succ_r'. lia.
Qed.
Lemma be_app a b v : be (a + b) v = be b (v / 256 ^ N.of_nat a) ++ be a v.
Proof. unfold be. rewrite le_app, rev_app_distr. reflexivity. Qed.
Lemma be_be_dec b : wf_bytes b -> be (length b) (be_dec b) = b.
Proof. intro W. unfold be, be_dec. rewrite <- (rev_length b), le_le_dec by (apply Forall_rev; exact W). apply rev_involutive. Qed.
Lemma be_dec_bound b : wf_bytes b -> be_dec b < 256 ^ N.of_nat (length b).
Proof. intro W. unfold be_dec. rewrite <- (rev_length b). apply le_dec_bound, Forall_rev, W. Qed.

(** A number is the IPv4 address of its four bytes if it is below 2^32; otherwise the IPv6 address of its sixteen bytes, or, if the first twelve say so, the
    IPv4 address of the last four.  Other numbers are refused. *)
Theorem C43_number : forall parse z a, na_value parse (NVInt z) = Ok a <->
  exists b, wf_bytes b /\
    ((length b = 4%nat /\ z = Z.of_N (be_dec b) /\ a = mkna 1 b) \/
     (length b = 4%nat /\ z = (65535 * 2 ^ 32 + Z.of_N (be_dec b))%Z /\ a = mkna 1 b) \/
     (length b = 16%nat /\ z = Z.of_N (be_dec b) /\ (2 ^ 32 <= z)%Z /\ (z / 2 ^ 32 <> 65535)%Z /\ a = mkna 2 b)).
Proof.
  intros parse z a. cbn [na_value]. unfold ip_of_int.
  assert (P32 : (2 ^ 32 = 4294967296)%Z) by reflexivity. assert (Q32 : 256 ^ N.of_nat 4 = 4294967296) by reflexivity. assert (P128 : (2 ^ 128 = Z.of_N (256 ^ N.of_nat 16))%Z) by reflexivity.
  assert (Q96 : 256 ^ N.of_nat 16 = 256 ^ N.of_nat 12 * 4294967296) by reflexivity.
  destruct ((0 <=? z) && (z <? 2 ^ 32))%Z eqn:S4.
  - cbn [bind]. unfold na_packed. rewrite be_length. cbn [Nat.eqb]. assert (B : Z.to_N z < 256 ^ N.of_nat 4) by lia. split.
    + intro E. apply ok_inj in E. subst a. exists (be 4 (Z.to_N z)). split; [apply be_wf|]. left. rewrite be_length, be_dec_be by exact B. split; [reflexivity|]. split; [lia|reflexivity].
    + intros (b & W & [(L & -> & ->)|[(L & -> & ->)|(L & E & G & _)]]).
      * rewrite N2Z.id. replace 4%nat with (length b). rewrite be_be_dec by exact W. reflexivity.
      * exfalso. lia.
      * exfalso. lia.
  - destruct ((0 <=? z) && (z <? 2 ^ 128))%Z eqn:S16.
    + cbn [bind]. unfold na_packed. rewrite be_length. cbn [Nat.eqb]. assert (B : Z.to_N z < 256 ^ N.of_nat 16) by lia.
      assert (X : be 16 (Z.to_N z) = be 12 (Z.to_N z / 4294967296) ++ be 4 (Z.to_N z)) by (exact (be_app 4 12 (Z.to_N z))).
      assert (F : firstn 12 (be 16 (Z.to_N z)) = be 12 (Z.to_N z / 4294967296)) by (rewrite X, firstn_app, be_length, firstn_all2 by (rewrite be_length; lia); change (12 - 12)%nat with 0%nat; rewrite firstn_O; apply app_nil_r).
      assert (K : skipn 12 (be 16 (Z.to_N z)) = be 4 (Z.to_N z)) by (rewrite X, skipn_app, be_length, skipn_all2 by (rewrite be_length; lia); reflexivity).
      assert (M : mapped_prefix = be 12 65535) by reflexivity. rewrite F, K, M.
      assert (D : Z.to_N z / 4294967296 < 256 ^ N.of_nat 12) by (apply N.div_lt_upper_bound; [discriminate|]; rewrite Q96 in B; lia).
      destruct (listN_eqb (be 12 (Z.to_N z / 4294967296)) (be 12 65535)) eqn:E.
      * apply listN_eqb_eq in E. apply (f_equal be_dec) in E. rewrite !be_dec_be in E by (exact D || reflexivity).
        assert (V : be 4 (Z.to_N z) = be 4 (Z.to_N z mod 4294967296)).
        { unfold be. f_equal. assert (Q : forall w v, le w v = le w (v mod 256 ^ N.of_nat w)).
          { induction w as [|w IH]; intro v; [reflexivity|]. rewrite !le_S. assert (Pw : 256 ^ N.of_nat w <> 0) by (apply N.pow_nonzero; discriminate).
            rewrite Nat2N.inj_succ, N.pow_succ_r'. rewrite N.mod_mul_r by (try discriminate; exact Pw). rewrite (IH (v / 256)). f_equal.
            - rewrite N.add_mod, (N.mul_comm 256), N.mod_mul, N.add_0_r, N.mod_mod, N.mod_mod by discriminate. reflexivity.
            - rewrite (N.mul_comm 256), N.div_add by discriminate. rewrite (N.div_small (v mod 256) 256) by (apply N.mod_lt; discriminate). reflexivity. }
          rewrite (Q 4%nat (Z.to_N z)). reflexivity. }
        assert (R : Z.to_N z mod 4294967296 < 256 ^ N.of_nat 4) by (rewrite Q32; apply N.mod_lt; discriminate). rewrite V. split.
        -- intro A. apply ok_inj in A. subst a. exists (be 4 (Z.to_N z mod 4294967296)). split; [apply be_wf|]. right. left. rewrite be_length, be_dec_be by exact R. split; [reflexivity|]. split; [lia|reflexivity].
        -- intros (b & W & [(L & Ez & ->)|[(L & Ez & ->)|(L & _ & _ & N & _)]]).
           ++ exfalso. pose proof (be_dec_bound b W) as Bb. rewrite L in Bb. lia.
           ++ pose proof (be_dec_bound b W) as Bb. rewrite L, Q32 in Bb. replace (Z.to_N z mod 4294967296) with (be_dec b) by lia. rewrite <- L, be_be_dec by exact W. reflexivity.
           ++ exfalso. lia.
      * assert (E' : Z.to_N z / 4294967296 <> 65535) by (intro Q; rewrite Q, (proj2 (listN_eqb_eq _ _) eq_refl) in E; discriminate E). split.
        -- intro A. apply ok_inj in A. subst a. exists (be 16 (Z.to_N z)). split; [apply be_wf|]. right. right. rewrite be_length, be_dec_be by exact B. split; [reflexivity|]. split; [lia|]. split; [lia|]. split; [lia|reflexivity].
        -- intros (b & W & [(L & Ez & ->)|[(L & Ez & ->)|(L & Ez & _ & _ & ->)]]).
           ++ exfalso. pose proof (be_dec_bound b W) as Bb. rewrite L in Bb. lia.
           ++ exfalso. pose proof (be_dec_bound b W) as Bb. rewrite L, Q32 in Bb. lia.
           ++ rewrite Ez, N2Z.id, <- L, be_be_dec by exact W. reflexivity.
    + cbn [bind]. split; [discriminate|]. intros (b & W & C). exfalso. pose proof (be_dec_bound b W) as Bb.
      destruct C as [(L & -> & _)|[(L & -> & _)|(L & -> & _)]]; rewrite L in Bb; lia.
Qed.
Print Assumptions C43_number.
(** 127.0.0.1, the same address in IPv6 notation, and ::1:0:0. *)
Example C43_ex_number : forall parse, na_value parse (NVInt 2130706433) = Ok (mkna 1 [127; 0; 0; 1]) /\
  na_value parse (NVInt (65535 * 2 ^ 32 + 2130706433)) = Ok (mkna 1 [127; 0; 0; 1]) /\ na_value parse (NVInt (2 ^ 32)) = Ok (mkna 2 (repeatN 0 11 ++ [1; 0; 0; 0; 0])) /\
  na_value parse (NVInt (2 ^ 128)) = Err ValueError /\ na_value parse (NVInt (-1)) = Err ValueError.
Proof. intro parse. repeat split; vm_compute; reflexivity. Qed.
