(** Transactions that fit can be hashed for signing. *)
From Verif Require Import Base BaseFacts Encoders EncodersFacts Currency Primitive Types TypesFacts TypesFacts2 CurrencyFacts Conditions ConditionFacts Fulfillments ThreeBotTypes Txn TxnFacts Spec_Types Spec_Ops Spec_Sign Spec_Fits.
From Coq Require Import ZifyBool ZifyNat ZifyN.
Ltac Zify.zify_post_hook ::= Z.div_mod_to_equations.

(** the result is there and at most so long *)
Definition short (n : N) (r : res bytes) : Prop := exists b, r = Ok b /\ lenN b <= n.
Lemma short_app n m a b : short n a -> short m b -> short (n + m) (a +++ b).
Proof. intros (x & -> & X) (y & -> & Y). exists (x ++ y). split; [reflexivity|]. unfold lenN in *. rewrite app_length. lia. Qed.
Lemma short_le n m a : short n a -> n <= m -> short m a.
Proof. intros (x & -> & X) L. exists x. split; [reflexivity|lia]. Qed.
Lemma short_ok b : short (lenN b) (Ok b).
Proof. exists b. split; [reflexivity|lia]. Qed.
Lemma short_is_ok n r : short n r -> is_ok r = true.
Proof. intros (b & -> & _). reflexivity. Qed.
Lemma le_len n x : lenN (le n x) = N.of_nat n.
Proof. unfold lenN. rewrite le_length. reflexivity. Qed.
Lemma short_sia_int z : u64 z -> short 8 (sia_int z).
Proof. intro U. rewrite sia_int_total by exact U. eexists. split; [reflexivity|]. rewrite le_len. lia. Qed.
Lemma short_riv_int w z : (0 <= z)%Z -> Z.to_N z < 256 ^ N.of_nat w -> short (N.of_nat w) (riv_int w z).
Proof. intros A B. rewrite riv_int_spec. replace ((0 <=? z) && (z <? Z.of_N (256 ^ N.of_nat w)))%Z with true by lia. eexists. split; [reflexivity|]. rewrite le_len. lia. Qed.
Lemma short_riv1 z : (0 <= z < 256)%Z -> short 1 (riv_int 1 z).
Proof. intro B. apply (short_riv_int 1); [lia|]. change (256 ^ N.of_nat 1) with 256. lia. Qed.
Lemma short_riv4 z : u32 z -> short 4 (riv_int 4 z).
Proof. intro B. unfold u32 in B. apply (short_riv_int 4); [lia|]. change (256 ^ N.of_nat 4) with (2 ^ 32). lia. Qed.
Lemma short_riv8 z : u64 z -> short 8 (riv_int 8 z).
Proof. intro B. unfold u64 in B. apply (short_riv_int 8); [lia|]. change (256 ^ N.of_nat 8) with (2 ^ 64). lia. Qed.
Lemma short_byte z : (0 <= z < 256)%Z -> short 1 (sia_byte z).
Proof. intro B. rewrite sia_byte_ok by exact B. eexists. split; [reflexivity|]. cbn. lia. Qed.
Lemma short_sia_slice n b : lenN b <= n -> n < 2 ^ 64 -> short (8 + n) (sia_slice b).
Proof. intros L B. rewrite sia_slice_spec. apply short_app; [apply short_sia_int; unfold u64, lenN in *; lia|]. exists b. auto. Qed.
Lemma short_bind_sia n r : short n r -> n < 2 ^ 64 -> short (8 + n) (do d <- r; sia_slice d).
Proof. intros (b & -> & L) B. cbn [bind]. apply short_sia_slice; assumption. Qed.
Lemma prefix_len n : n < 2 ^ 29 -> lenN (prefix_of n) <= 4.
Proof. intro B. unfold prefix_of. repeat match goal with |- context [if ?b then _ else _] => destruct b end; rewrite ?le_len; lia. Qed.
Lemma short_riv_lenr n : n < 2 ^ 29 -> short 4 (riv_lenr n).
Proof. intro B. rewrite riv_lenr_spec. replace (n <? 2 ^ 29) with true by lia. eexists. split; [reflexivity|]. apply prefix_len, B. Qed.
Lemma short_riv_slice n b : lenN b <= n -> n < 2 ^ 29 -> short (4 + n) (riv_slice b).
Proof. intros L B. rewrite riv_slice_spec. apply short_app; [apply short_riv_lenr; lia|]. exists b. auto. Qed.
Lemma short_bind_riv n r : short n r -> n < 2 ^ 29 -> short (4 + n) (do d <- r; riv_slice d).
Proof. intros (b & -> & L) B. cbn [bind]. apply short_riv_slice; assumption. Qed.
Lemma short_concat {A} n (f : A -> res bytes) l : Forall (fun x => short n (f x)) l -> short (N.of_nat (length l) * n) (rconcat (map f l)).
Proof.
  induction 1 as [|x l X _ IH]; [exists []; split; [reflexivity|cbn; lia]|]. cbn [map rconcat]. eapply short_le; [apply short_app; [exact X|exact IH]|]. cbn [length]. lia.
Qed.
Lemma short_sia_list {A} n (f : A -> res bytes) l : few l -> Forall (fun x => short n (f x)) l -> short (8 + 1000000 * n) (sia_list f l).
Proof.
  intros F X. unfold sia_list, few in *. apply short_app; [apply short_sia_int; unfold u64; lia|]. eapply short_le; [apply short_concat; exact X|]. apply N.mul_le_mono_r. exact F.
Qed.
Lemma short_riv_list {A} n (f : A -> res bytes) l : few l -> Forall (fun x => short n (f x)) l -> short (4 + 1000000 * n) (riv_list f l).
Proof.
  intros F X. unfold riv_list, few in *. apply short_app; [apply short_riv_lenr; unfold lenN; lia|]. eapply short_le; [apply short_concat; exact X|]. apply N.mul_le_mono_r. exact F.
Qed.
(** parts *)
Lemma short_uh_sia u : small_uh u -> short 33 (uh_sia u).
Proof. intros (T & L). apply (short_app 1 32); [apply short_byte, T|]. eexists. split; [reflexivity|]. unfold lenN. lia. Qed.
Lemma short_uh_riv u : small_uh u -> short 33 (uh_riv u).
Proof. intros (T & L). apply (short_app 1 32); [apply short_riv1, T|]. eexists. split; [reflexivity|]. unfold lenN. lia. Qed.
Lemma short_key_sia k : small_key k -> exists n, short n (pk_sia k).
Proof. intro L. eexists. apply short_app; [apply short_ok|]. apply (short_sia_slice 32); [unfold lenN, small_key in *; lia|lia]. Qed.
Lemma short_key_riv k : small_key k -> short 33 (pk_riv k).
Proof. intro L. apply (short_app 1 32); [apply short_riv1; destruct (pk_spec k); cbn; lia|]. eexists. split; [reflexivity|]. unfold lenN, small_key in *. lia. Qed.
Lemma modest_len n : modest n -> lenN (min_be n) <= 500.
Proof.
  intro M. unfold modest in M. unfold lenN. rewrite min_be_length. unfold nbytes.
  assert (S1 : N.size n <= 4000). { destruct (N.eq_dec n 0) as [->|Z]; [cbn; lia|]. rewrite N.size_log2 by exact Z. assert (N.log2 n < 4000); [|lia]. apply N.log2_lt_pow2; [lia|]. eapply N.lt_le_trans; [exact M|]. vm_compute. discriminate. }
  rewrite N2Nat.id. lia.
Qed.
Lemma short_amt_sia n : modest n -> short 508 (amt_sia n).
Proof. intro M. apply (short_sia_slice 500); [apply modest_len, M|lia]. Qed.
Lemma short_amt_riv n : modest n -> short 504 (amt_riv n).
Proof. intro M. apply (short_riv_slice 500); [apply modest_len, M|lia]. Qed.
Lemma short_secret_sia h : (forall x, h = Some x -> (length x <= 32)%nat) -> short 32 (bd_sia (secret_bd h)).
Proof.
  intro L. destruct h as [x|]; cbn [secret_bd hash_bd].
  - unfold bd_sia, hash_bd. cbn [bd_size bd_val]. eexists. split; [reflexivity|]. specialize (L x eq_refl). unfold lenN. lia.
  - unfold bd_sia. cbn [bd_size bd_val]. eapply short_le; [apply (short_sia_slice 0); [cbn; lia|lia]|lia].
Qed.
Lemma short_secret_riv h : (forall x, h = Some x -> (length x <= 32)%nat) -> short 32 (bd_riv (secret_bd h)).
Proof.
  intro L. destruct h as [x|]; cbn [secret_bd hash_bd].
  - unfold bd_riv, hash_bd. cbn [bd_size bd_val]. eexists. split; [reflexivity|]. specialize (L x eq_refl). unfold lenN. lia.
  - unfold bd_riv. cbn [bd_size bd_val]. eapply short_le; [apply (short_riv_slice 0); [cbn; lia|lia]|lia].
Qed.
Lemma short_flat_sia c : (forall l i, c <> CLock l i) -> fits_cond c -> short 34000000 (cond_sia_data c).
Proof.
  intros N F. destruct c as [|u|s r h l|l i|us n]; cbn [cond_sia_data fits_cond] in *.
  - exists []. split; [reflexivity|cbn; lia].
  - eapply short_le; [apply short_uh_sia, F|lia].
  - destruct F as (F1 & F2 & F3 & F4). eapply short_le; [repeat first [apply short_uh_sia; assumption | apply short_secret_sia; assumption | apply short_sia_int; assumption | apply short_app]|lia].
  - exfalso. exact (N _ _ eq_refl).
  - destruct F as (F1 & F2 & F3). eapply short_le; [apply short_app; [apply short_sia_int, F3|apply (short_sia_list 33); [exact F2|eapply Forall_impl; [|exact F1]; intros; apply short_uh_sia; assumption]]|lia].
Qed.
Lemma short_flat_riv c : (forall l i, c <> CLock l i) -> fits_cond c -> short 34000000 (cond_riv_data c).
Proof.
  intros N F. destruct c as [|u|s r h l|l i|us n]; cbn [cond_riv_data fits_cond] in *.
  - exists []. split; [reflexivity|cbn; lia].
  - eapply short_le; [apply short_uh_riv, F|lia].
  - destruct F as (F1 & F2 & F3 & F4). eapply short_le; [repeat first [apply short_uh_riv; assumption | apply short_secret_riv; assumption | apply short_riv8; assumption | apply short_app]|lia].
  - exfalso. exact (N _ _ eq_refl).
  - destruct F as (F1 & F2 & F3). eapply short_le; [apply short_app; [apply short_riv8, F3|apply (short_riv_list 33); [exact F2|eapply Forall_impl; [|exact F1]; intros; apply short_uh_riv; assumption]]|lia].
Qed.
Lemma cond_type_byte c : (0 <= cond_type c < 256)%Z.
Proof. destruct c; cbn; lia. Qed.
Lemma short_cond_sia c : fits_cond c -> short 40000000 (cond_sia c).
Proof.
  intro F. eapply short_le; [apply (short_app 1 (8 + 34000100)); [eexists; split; [reflexivity|cbn; lia]|]|lia].
  apply short_bind_sia; [|lia]. destruct c as [|u|s r h l|l i|us n]; try (eapply short_le; [apply short_flat_sia; [discriminate|exact F]|lia]).
  cbn [cond_sia_data fits_cond] in *. destruct F as (F1 & F2). eapply short_le; [apply (short_app 8 (1 + 34000000)); [apply short_sia_int, F1|apply short_app; [eexists; split; [reflexivity|cbn; lia]|]]|lia].
  apply short_flat_sia; destruct i; try discriminate; try contradiction; exact F2.
Qed.
Lemma short_cond_riv c : fits_cond c -> short 40000000 (cond_riv c).
Proof.
  intro F. eapply short_le; [apply (short_app 1 (4 + 34000100)); [apply short_riv1, cond_type_byte|]|lia].
  apply short_bind_riv; [|lia]. destruct c as [|u|s r h l|l i|us n]; try (eapply short_le; [apply short_flat_riv; [discriminate|exact F]|lia]).
  cbn [cond_riv_data fits_cond] in *. destruct F as (F1 & F2). eapply short_le; [apply (short_app 8 (1 + 34000000)); [apply short_riv8, F1|apply short_app; [apply short_riv1, cond_type_byte|]]|lia].
  apply short_flat_riv; destruct i; try discriminate; try contradiction; exact F2.
Qed.
Lemma short_out_sia o : fits_out o -> short 50000000 (out_sia o).
Proof. intros (A & B). eapply short_le; [apply short_app; [apply short_amt_sia, A|apply short_cond_sia, B]|lia]. Qed.
Lemma short_out_riv o : fits_out o -> short 50000000 (out_riv o).
Proof. intros (A & B). eapply short_le; [apply short_app; [apply short_amt_riv, A|apply short_cond_riv, B]|lia]. Qed.

(** only that it is there *)
Definition there (r : res bytes) : Prop := is_ok r = true.
Lemma there_app a b : there a -> there b -> there (a +++ b).
Proof. unfold there. destruct a, b; cbn; auto; discriminate. Qed.
Lemma there_short n r : short n r -> there r.
Proof. apply short_is_ok. Qed.
Lemma there_concat {A} (f : A -> res bytes) l : Forall (fun x => there (f x)) l -> there (rconcat (map f l)).
Proof. induction 1; [reflexivity|]. cbn [map rconcat]. apply there_app; assumption. Qed.
Lemma there_sia_list {A} (f : A -> res bytes) l : few l -> Forall (fun x => there (f x)) l -> there (sia_list f l).
Proof. intros F X. apply there_app; [apply (there_short 8), short_sia_int; unfold u64, few in *; lia|apply there_concat, X]. Qed.
Lemma there_riv_list {A} (f : A -> res bytes) l : few l -> Forall (fun x => there (f x)) l -> there (riv_list f l).
Proof. intros F X. apply there_app; [apply (there_short 4), short_riv_lenr; unfold lenN, few in *; lia|apply there_concat, X]. Qed.
Lemma there_ids_sia l : few l -> there (ids_sia l).
Proof. intro F. apply there_sia_list; [unfold few in *; rewrite map_length; exact F|]. apply Forall_forall. reflexivity. Qed.
Lemma there_ids_riv l : few l -> there (ids_riv l).
Proof. intro F. apply there_app; [apply (there_short 8), short_riv8; unfold u64, few in *; lia|]. apply there_concat, Forall_forall. reflexivity. Qed.
Lemma there_xs_sia xs : Forall fits_extra xs -> there (xs_sia xs).
Proof.
  intro F. apply there_concat. eapply Forall_impl; [|exact F]. intros x X. destruct x as [z|k|s|s]; cbn [x_sia fits_extra] in *; try reflexivity.
  - apply (there_short 8), short_sia_int, X.
  - destruct (short_key_sia k X) as (n & Q). exact (there_short _ _ Q).
Qed.
Lemma there_xs_riv xs : Forall fits_extra xs -> there (xs_riv xs).
Proof.
  intro F. apply there_concat. eapply Forall_impl; [|exact F]. intros x X. destruct x as [z|k|s|s]; cbn [x_riv fits_extra] in *; try reflexivity.
  - apply (there_short 8), short_riv8, X.
  - exact (there_short _ _ (short_key_riv k X)).
Qed.
Lemma there_outs l : few l -> Forall fits_out l -> there (sia_list out_sia l).
Proof. intros F X. apply there_sia_list; [exact F|]. eapply Forall_impl; [|exact X]. intros o O. exact (there_short _ _ (short_out_sia o O)). Qed.
Lemma there_fees l : few l -> Forall modest l -> there (sia_list amt_sia l).
Proof. intros F X. apply there_sia_list; [exact F|]. eapply Forall_impl; [|exact X]. intros o O. exact (there_short _ _ (short_amt_sia o O)). Qed.
Lemma there_slice b : few b -> there (sia_slice b).
Proof. intro F. apply (there_short (8 + 1000000)), short_sia_slice; [exact F|lia]. Qed.
Lemma there_refund o : fits_refund o -> there (refund_riv o).
Proof.
  intro F. destruct o as [o|]; cbn [refund_riv]; [|apply (there_short 1), short_riv1; lia].
  apply there_app; [apply (there_short 1), short_riv1; lia|]. exact (there_short _ _ (short_out_riv o (F o eq_refl))).
Qed.
Lemma there_na a : address_ok a -> there (na_riv a).
Proof.
  intros (T & L). apply there_app; [|reflexivity]. apply (there_short 1), short_riv1. unfold lenN.
  assert (X : N.lor (na_type a) (N.shiftl (N.of_nat (length (na_bytes a))) 2) < 2 ^ 8); [|change (2 ^ 8) with 256 in X; lia].
  destruct (N.eq_dec (N.lor (na_type a) (N.shiftl (N.of_nat (length (na_bytes a))) 2)) 0) as [E|E]; [rewrite E; lia|]. apply N.log2_lt_pow2; [lia|]. rewrite N.log2_lor.
  assert (A : N.log2 (na_type a) <= 1) by (transitivity (N.log2 3); [apply N.log2_le_mono; lia|vm_compute; discriminate]).
  assert (B : N.log2 (N.shiftl (N.of_nat (length (na_bytes a))) 2) <= 7).
  { transitivity (N.log2 255); [|vm_compute; discriminate]. apply N.log2_le_mono. rewrite N.shiftl_mul_pow2. change (2 ^ 2) with 4. lia. }
  lia.
Qed.
Lemma there_bn s : text_ok s -> there (bn_riv s).
Proof. intros (A & L). rewrite bn_riv_slice by exact A. apply (there_short (4 + 63)), short_riv_slice; [unfold lenN; lia|lia]. Qed.
Lemma few_small {A} (l : list A) : (length l <= 1000)%nat -> few l.
Proof. unfold few. lia. Qed.
Theorem sig_input_there : forall H t xs, fits t -> Forall fits_extra xs -> is_ok (sig_input H t xs) = true.
Proof.
  intros H t xs F X. assert (A : forall b, there (arr b)) by reflexivity.
  destruct t as [t|t|t|t|t|t|t|t]; cbn [fits sig_input] in *.
  - destruct F as (-> & F1 & F2 & F3 & F4 & F5 & F6 & F7 & F8 & F9).
    repeat first [apply there_xs_sia; assumption | apply there_ids_sia; assumption | apply there_outs; assumption | apply there_fees; assumption | apply there_slice; assumption
                 | apply (there_short 1), short_byte; lia | apply there_app].
  - destruct F as (F1 & F2 & F3 & F4).
    assert (V : (0 <= version (TMint t) < 256)%Z) by (cbn; destruct (m_new t); lia).
    repeat first [apply A | apply there_xs_sia; assumption | apply there_fees; assumption | apply there_slice; assumption | apply (there_short 1), short_byte; exact V | apply there_app].
    destruct (m_new t) as [c|os]; [exact (there_short _ _ (short_cond_sia c F1))|destruct F1; apply there_outs; assumption].
  - destruct F as (F1 & F2 & F3 & F4).
    repeat first [apply A | apply there_xs_riv; assumption | apply there_ids_riv; assumption | apply there_refund; assumption
                 | apply (there_short 504), short_amt_riv; assumption | apply (there_short 1), short_riv1; lia | apply there_app].
  - destruct F as (F1 & F2 & F3).
    repeat first [apply A | apply there_xs_sia; assumption | apply (there_short 33), short_uh_sia; assumption
                 | apply (there_short 508), short_amt_sia; assumption | apply (there_short 1), short_byte; lia | apply there_app].
  - destruct F as (F1 & (l & -> & F2) & F3 & F4). cbn [got bind]. assert (R : modest REG_FEE) by (vm_compute; reflexivity).
    repeat first [apply A | apply there_xs_riv; assumption | apply there_ids_riv; assumption | apply there_refund; assumption | apply (there_short 33), short_key_riv; assumption
                 | apply (there_short 504), short_amt_riv; assumption | apply (there_short 1), short_riv1; lia | apply there_app].
  - destruct F as ((L1 & L2 & L3) & (N1 & N2) & F2 & F3 & F4 & F5).
    repeat first [apply A | apply there_xs_riv; assumption | apply there_ids_riv; assumption | apply there_refund; assumption | apply (there_short 33), short_key_riv; assumption
                 | apply (there_short 504), short_amt_riv; assumption | apply (there_short 1), short_riv1; lia
                 | apply there_riv_list; [apply few_small; lia|eapply Forall_impl; [|eassumption]; first [exact there_na|exact there_bn]] | apply there_app].
  - destruct F as ((L1 & L2 & L3 & L4 & L5 & L6) & (N1 & N2 & N3 & N4) & F1 & F2 & F3 & F4).
    repeat first [apply A | apply there_xs_riv; assumption | apply there_ids_riv; assumption | apply there_refund; assumption | apply (there_short 4), short_riv4; assumption
                 | apply (there_short 504), short_amt_riv; assumption | apply (there_short 1), short_riv1; lia
                 | apply there_riv_list; [apply few_small; lia|eapply Forall_impl; [|eassumption]; first [exact there_na|exact there_bn]] | apply there_app].
  - destruct F as ((L1 & L2 & L3) & N1 & F0 & F1 & (l & -> & F2) & F3 & F4). cbn [got bind].
    repeat first [apply A | apply there_xs_riv; assumption | apply there_ids_riv; assumption | apply there_refund; assumption | apply (there_short 4), short_riv4; assumption
                 | apply (there_short 504), short_amt_riv; assumption | apply (there_short 1), short_riv1; lia
                 | apply there_riv_list; [apply few_small; lia|eapply Forall_impl; [|eassumption]; first [exact there_na|exact there_bn]] | apply there_app].
Qed.
