(** Facts about reading names and addresses back (C42, C43). *)
From Verif Require Import Base BaseFacts Encoders EncodersFacts Primitive Types Conditions Fulfillments ThreeBotTypes Txn TxnSign Wallet
  Spec_Types Spec_Fulfil Spec_Txn TypesFacts FulfilFacts TxnFacts TxnFacts2 TxnFacts4 Spec_ThreeBot ThreeBotFacts Spec_Wallet Ops Spec_Ops OpsFacts.
From Coq Require Import ZifyBool ZifyNat ZifyN.
Ltac Zify.zify_post_hook ::= Z.div_mod_to_equations.

Lemma firstn_app_len {A} (a b : list A) : firstn (length a) (a ++ b) = a.
Proof. rewrite firstn_app, Nat.sub_diag, firstn_all. apply app_nil_r. Qed.
Lemma skipn_app_len {A} (a b : list A) : skipn (length a) (a ++ b) = b.
Proof. rewrite skipn_app, Nat.sub_diag, skipn_all. reflexivity. Qed.
(** ** accepted values *)
Lemma le_len w v : length (le w v) = w.
Proof. revert v. induction w as [|w IH]; intro v; cbn; [reflexivity|]. now rewrite IH. Qed.
Lemma packed_ok p : (length p = 4 \/ length p = 16)%nat -> address_ok (na_packed p) /\ (na_type (na_packed p) = 1 \/ na_type (na_packed p) = 2).
Proof.
  intros L. unfold na_packed, address_ok. destruct (length p =? 4)%nat eqn:E; cbn [na_type na_bytes]; [split; [split; lia | auto]|]. destruct (listN_eqb _ _); cbn [na_type na_bytes]; rewrite ?skipn_length; (split; [split; lia | auto]).
Qed.
Definition ip_ok (ip_parse : pystr -> res bytes) : Prop := forall s p, ip_parse s = Ok p -> (length p = 4 \/ length p = 16)%nat.
Lemma ascii_utf8 s : ascii_str s -> utf8 s = Ok s.
Proof. apply utf8_ascii. Qed.
Lemma na_new_host ip s : maybe_newline host_name s -> na_new ip (Some s) = if (length s <=? 63)%nat then Ok (mkna 0 s) else Err ValueError.
Proof.
  intros M. unfold na_new. pose proof (newline_ascii _ _ host_ascii M) as A. apply host_match in M. rewrite M, (ascii_utf8 _ A). cbn [bind]. unfold lenN.
  destruct (63 <? N.of_nat (length s)) eqn:E; destruct (length s <=? 63)%nat eqn:F; try lia; reflexivity.
Qed.
Lemma na_new_other ip s : ~ maybe_newline host_name s -> na_new ip (Some s) = do p <- ip s; Ok (na_packed p).
Proof. intros M. unfold na_new. destruct (re_match hostname_re s) eqn:E; [|reflexivity]. apply host_match in E. contradiction. Qed.
Lemma na_new_ok ip v a : ip_ok ip -> na_new ip v = Ok a -> address_ok a.
Proof.
  intros I E. destruct v as [s|]; [|apply ok_inj in E; subst a; split; cbn; lia].
  destruct (re_match hostname_re s) eqn:M.
  - apply host_match in M. rewrite (na_new_host _ _ M) in E. destruct (length s <=? 63)%nat eqn:L; [|discriminate]. apply ok_inj in E. subst a. split; cbn; lia.
  - unfold na_new in E. rewrite M in E. apply bind_ok in E as (p & P & E). apply ok_inj in E. subst a. apply packed_ok, (I _ _ P).
Qed.
Lemma na_value_ok ip v a : ip_ok ip -> (forall b, v = NVAddr b -> address_ok b) -> na_value ip v = Ok a -> address_ok a.
Proof.
  intros I N E. destruct v as [v|z|b]; cbn in E.
  - exact (na_new_ok _ _ _ I E).
  - apply bind_ok in E as (p & P & E). apply ok_inj in E. subst a. apply packed_ok. unfold ip_of_int, be in P.
    destruct (_ && _)%bool; [apply ok_inj in P; subst p; rewrite rev_length, le_len; auto|]. destruct (_ && _)%bool; [apply ok_inj in P; subst p; rewrite rev_length, le_len; auto | discriminate].
  - destruct (na_type b =? 0); [|discriminate]. apply ok_inj in E. subst b. apply N. reflexivity.
Qed.
Lemma bn_new_iff v s : bn_new v = Ok s <-> match v with None => s = [] | Some t => s = t /\ (length t <= 63)%nat /\ maybe_newline bot_name t end.
Proof.
  destruct v as [t|]; cbn [bn_new]; [|split; [intro E; apply ok_inj in E; auto | intros ->; reflexivity]].
  unfold lenN. rewrite <- name_match. destruct (63 <? N.of_nat (length t)) eqn:L; [split; [discriminate | intros (_ & X & _); lia]|].
  destruct (re_match botname_re t); split; try discriminate; [intro E; apply ok_inj in E; subst; repeat split; lia | intros (-> & _); reflexivity | intros (_ & _ & X); discriminate].
Qed.
Lemma bn_new_ok v s : bn_new v = Ok s -> text_ok s.
Proof.
  intro E. apply bn_new_iff in E. destruct v as [t|].
  - destruct E as (-> & L & M). split; [exact (newline_ascii _ _ name_ascii M) | exact L].
  - subst s. split; [constructor | cbn; lia].
Qed.

(** ** reading back *)
Lemma na_ok_of a : address_ok a -> na_ok a.
Proof. intros [A B]. split; [exact A | lia]. Qed.
Lemma na_riv_eq a : address_ok a -> na_riv a = Ok ((na_type a + 4 * lenN (na_bytes a)) :: na_bytes a).
Proof.
  intros A. unfold na_riv. rewrite na_byte by (apply na_ok_of; exact A). destruct A as [T L].
  assert (E : riv_int 1 (Z.of_N (na_type a + 4 * lenN (na_bytes a))) = Ok [na_type a + 4 * lenN (na_bytes a)]).
  { rewrite riv_int_spec. unfold lenN. change (Z.of_N (256 ^ N.of_nat 1)) with 256%Z. replace ((0 <=? _) && (_ <? 256))%Z with true by lia.
    rewrite N2Z.id. cbn [le]. rewrite N.mod_small by lia. reflexivity. }
  rewrite E. reflexivity.
Qed.
Lemma read_address_ok a rest : address_ok a -> read_address ((na_type a + 4 * lenN (na_bytes a)) :: na_bytes a ++ rest) = Some (a, rest).
Proof.
  intros [T L]. unfold read_address. set (b := na_type a + 4 * lenN (na_bytes a)). assert (N.to_nat (b / 4) = length (na_bytes a)) as -> by (unfold b, lenN; lia).
  assert (b mod 4 = na_type a) as -> by (unfold b, lenN; lia). rewrite app_length. replace (_ <? _)%nat with false by lia.
  rewrite firstn_app_len, skipn_app_len. destruct a; reflexivity.
Qed.
Lemma bn_riv_eq s : text_ok s -> bn_riv s = Ok ((2 * lenN s) :: s).
Proof.
  intros [A L]. rewrite (bn_riv_slice _ A), riv_slice_spec, riv_lenr_spec. unfold prefix_of, lenN. replace (N.of_nat (length s) <? 2 ^ 29) with true by (change (2^29) with 536870912; lia).
  replace (N.of_nat (length s) <? 2 ^ 7) with true by (change (2^7) with 128; lia). cbn [le]. rewrite N.mod_small by lia. reflexivity.
Qed.
Lemma read_name_ok s rest : text_ok s -> read_name ((2 * lenN s) :: s ++ rest) = Some (s, rest).
Proof.
  intros [A L]. unfold read_name. assert (N.to_nat (2 * lenN s / 2) = length s) as -> by (unfold lenN; lia). rewrite app_length.
  replace (_ <? _)%nat with false by lia. replace (2 * lenN s mod 2 =? 0) with true by (unfold lenN; lia). cbn [orb negb]. now rewrite firstn_app_len, skipn_app_len.
Qed.
Lemma read_many_ok {A} (enc : A -> res bytes) rd (P : A -> Prop) (E : forall a, P a -> exists w, enc a = Ok w /\ forall rest, rd (w ++ rest) = Some (a, rest)) l :
  Forall P l -> exists w, rconcat (map enc l) = Ok w /\ forall rest, read_many rd (length l) (w ++ rest) = Some (l, rest).
Proof.
  induction 1 as [|a l Pa F IH]; [exists []; split; reflexivity|]. destruct (E a Pa) as (w & W & R). destruct IH as (v & V & S). exists (w ++ v). cbn [map rconcat]. rewrite W, V. split; [reflexivity|].
  intro rest. cbn [length read_many]. rewrite <- app_assoc, R, S. reflexivity.
Qed.
Lemma addr_read a : address_ok a -> exists w, na_riv a = Ok w /\ forall rest, read_address (w ++ rest) = Some (a, rest).
Proof. intro A. eexists. split; [apply na_riv_eq, A|]. intro rest. apply read_address_ok, A. Qed.
Lemma name_read s : text_ok s -> exists w, bn_riv s = Ok w /\ forall rest, read_name (w ++ rest) = Some (s, rest).
Proof. intro A. eexists. split; [apply bn_riv_eq, A|]. intro rest. apply read_name_ok, A. Qed.
Lemma pair_len_eq a b : (a <= 15)%nat -> (b <= 15)%nat -> pair_len a b = Ok [N.of_nat a + 16 * N.of_nat b].
Proof.
  intros A B. unfold pair_len. rewrite lor_low by (change (2 ^ 4) with 16; lia). change (2 ^ 4) with 16. rewrite riv_int_spec. change (Z.of_N (256 ^ N.of_nat 1)) with 256%Z.
  replace ((0 <=? _) && (_ <? 256))%Z with true by lia. rewrite N2Z.id. cbn [le]. rewrite N.mod_small by lia. do 2 f_equal. lia.
Qed.
Lemma read_two_ok {A B} (ea : A -> res bytes) (eb : B -> res bytes) ra rb (P : A -> Prop) (Q : B -> Prop) la lb
  (Ha : forall a, P a -> exists w, ea a = Ok w /\ forall rest, ra (w ++ rest) = Some (a, rest))
  (Hb : forall a, Q a -> exists w, eb a = Ok w /\ forall rest, rb (w ++ rest) = Some (a, rest)) : (length la <= 15)%nat -> (length lb <= 15)%nat -> Forall P la -> Forall Q lb ->
  exists w, pair_len (length la) (length lb) +++ (rconcat (map ea la) +++ rconcat (map eb lb)) = Ok w /\ forall rest, read_two ra rb (w ++ rest) = Some ((la, lb), rest).
Proof.
  intros L1 L2 F1 F2. destruct (read_many_ok _ _ _ Ha _ F1) as (x & X & RX). destruct (read_many_ok _ _ _ Hb _ F2) as (y & Y & RY).
  rewrite pair_len_eq, X, Y by assumption. eexists. split; [reflexivity|]. intro rest. unfold read_two. cbn [rapp bind app byte then_].
  assert (N.to_nat ((N.of_nat (length la) + 16 * N.of_nat (length lb)) mod 16) = length la) as -> by lia.
  assert (N.to_nat ((N.of_nat (length la) + 16 * N.of_nat (length lb)) / 16) = length lb) as -> by lia.
  rewrite <- app_assoc, RX. cbn [then_]. rewrite RY. reflexivity.
Qed.
Lemma maf_flags m a n r x : maf m a n r = Ok x -> exists f, x = [f] /\ f mod 32 = Z.to_N m /\ flag f 32 = a /\ flag f 64 = n /\ flag f 128 = r.
Proof.
  intro E. apply maf_inv in E as [M ->]. eexists. split; [reflexivity|]. unfold flag. destruct a, n, r; cbn [b2n]; repeat split; lia.
Qed.
Lemma riv4 z x : riv_int 4 z = Ok x -> forall rest, number 4 (x ++ rest) = Some (Z.to_N z, rest).
Proof.
  rewrite riv_int_spec. change (Z.of_N (256 ^ N.of_nat 4)) with 4294967296%Z. destruct ((0 <=? z) && (z <? 4294967296))%Z eqn:E; [|discriminate]. intros X rest. apply ok_inj in X. subst x.
  unfold number. rewrite app_length, le_len. replace (_ <? _)%nat with false by lia. rewrite <- (le_len 4 (Z.to_N z)) at 1 3. rewrite firstn_app_len, skipn_app_len.
  rewrite le_dec_le; [reflexivity|]. change (256 ^ N.of_nat 4) with 4294967296. lia.
Qed.
Lemma nonempty_len {A} (l : list A) : nonempty l = negb (length l =? 0)%nat.
Proof. destruct l; reflexivity. Qed.
