(** C87: an atomic swap contract says what its output says. *)
From Verif Require Prop_Swap Prop_Fulfil.
From Verif Require Import Base BaseFacts Primitive Types TypesFacts Conditions ConditionFacts Currency Dates Txn Wallet Fulfillments AtomicSwap Show Spec_Types Spec_Texts Spec_Wire Spec_Show Spec_Contract Spec_Swap Spec_Amounts Spec_ERC20
  HexFacts Prop_Texts Prop_Wire ShowFacts.
From Coq Require Import ZifyBool ZifyNat ZifyN.
Ltac Zify.zify_post_hook ::= Z.div_mod_to_equations.

(** ** Making a contract of an output *)
(** It succeeds exactly for an output with a condition of this kind, a state, and no time or a whole number; the contract then is that output, in that state.
    A time that is not positive, or left out, is the present. *)
Theorem C87_made now o u t c : contract_make now o u t = Ok c <->
  exists x b, o = Some x /\ u = Some b /\ is_contract x (kt_contract c) /\ k_unspent (kt_contract c) = b /\
    ((t = StampNone /\ kt_time c = now) \/ exists z, t = StampInt z /\ ((0 < z)%Z /\ kt_time c = z \/ (z <= 0)%Z /\ kt_time c = now)).
Proof.
  unfold contract_make, is_contract. split.
  - intros E. destruct o as [x|]; [|discriminate]. destruct u as [b|]; [|apply bind_ok in E as (? & _ & E); discriminate].
    apply bind_ok in E as (k & Ek & E). unfold contract_new in Ek. destruct (o_cond x) as [|?|s r h l|? ?|? ?] eqn:C; try discriminate. apply ok_inj in Ek. subst k.
    exists x, b. destruct t as [|z|]; [| |discriminate]; apply ok_inj in E; subst c; cbn [kt_contract kt_time k_sender k_receiver k_hash k_refund k_amount k_id k_unspent]; rewrite C.
    + repeat match goal with |- _ /\ _ => split end; auto.
    + repeat match goal with |- _ /\ _ => split end; auto. right. exists z. split; [reflexivity|]. destruct (Z.leb_spec z 0); [right|left]; auto.
  - intros (x & b & -> & -> & (C & V & I) & U & T). unfold contract_new. rewrite C. cbn [bind]. destruct c as [[i a s r h l un] tm0]. cbn [kt_contract kt_time k_sender k_receiver k_hash k_refund k_amount k_id k_unspent] in *. subst.
    destruct T as [(-> & ->)|(z & -> & [(P & ->)|(P & ->)])]; cbn [bind]; try reflexivity; destruct (Z.leb_spec z 0); try lia; reflexivity.
Qed.
Print Assumptions C87_made.
(** The output of a contract is the one it was made of: value, condition and identifier. *)
Theorem C87_output now o u t c : contract_make now (Some o) u t = Ok c -> contract_output (kt_contract c) = o.
Proof.
  intros E. apply C87_made in E as (x & b & E & _ & (C & V & I) & _). injection E as <-. unfold contract_output. destruct o as [v cond id]. cbn [o_cond o_value o_id] in *. now subst.
Qed.
Print Assumptions C87_output.

(** ** Equality *)
Lemma hash_text k : bd_str (secret_bd (k_hash k)) = hex (hash_bytes k).
Proof. unfold hash_bytes. destruct (k_hash k); reflexivity. Qed.
(** Comparing with something else is refused. *)
Theorem C87_other H a : contract_eq H a None = Err TypeError /\ contract_ne H a None = Err TypeError.
Proof. split; reflexivity. Qed.
Print Assumptions C87_other.
(** Two contracts with complete addresses and hash can always be compared, and are equal exactly if they are the same in everything. *)
Theorem C87_equal H a b : hash_ok H -> complete_contract a -> complete_contract b ->
  exists r, contract_eq H a (Some b) = Ok r /\ contract_ne H a (Some b) = Ok (negb r) /\ (r = true <-> a = b).
Proof.
  intros HO (Sa & Ra & ha & Ha & Wa) (Sb & Rb & hb & Hb & Wb).
  assert (X : exists r, contract_eq H a (Some b) = Ok r /\ (r = true <-> a = b)).
  { unfold contract_eq. rewrite !uh_str_total by assumption. cbn [bind]. rewrite !hash_text. unfold hash_bytes. rewrite Ha, Hb. destruct a as [i m s r h l u], b as [i' m' s' r' h' l' u'].
    cbn [k_unspent k_id k_amount k_sender k_receiver k_hash k_refund] in *. subst h h'.
    destruct (Bool.eqb u u') eqn:U; cbn [negb]; [apply Bool.eqb_prop in U|apply Bool.eqb_false_iff in U; eexists; split; [reflexivity|split; [discriminate|congruence]]].
    destruct (listN_eqb i i') eqn:I; cbn [negb]; [apply listN_eqb_eq in I|apply listN_eqb_neq in I; eexists; split; [reflexivity|split; [discriminate|congruence]]].
    destruct (N.eqb_spec m m') as [M|M]; cbn [negb]; [|eexists; split; [reflexivity|split; [discriminate|congruence]]].
    eexists. split; [reflexivity|]. split.
    - intros E. apply andb_prop in E as (E & L). apply andb_prop in E as (E & Q). apply andb_prop in E as (E1 & E2). apply listN_eqb_eq in E1, E2, Q. apply Z.eqb_eq in L.
      assert (s = s') by (apply (uh_str_inj H s s' (ustr H s) HO Sa Sb); [now apply uh_str_total|rewrite E1; now apply uh_str_total]).
      assert (r = r') by (apply (uh_str_inj H r r' (ustr H r) HO Ra Rb); [now apply uh_str_total|rewrite E2; now apply uh_str_total]).
      assert (ha = hb). { destruct Wa as (_ & Wa), Wb as (_ & Wb). pose proof (unhex_hex Wa) as A. rewrite Q, (unhex_hex Wb) in A. congruence. }
      congruence.
    - intros E. injection E as -> -> -> -> -> -> ->. rewrite !listN_eqb_refl, Z.eqb_refl. reflexivity. }
  destruct X as (r & E & Q). exists r. split; [exact E|]. split; [unfold contract_ne; rewrite E; reflexivity|exact Q].
Qed.
Print Assumptions C87_equal.
(** In general: the state, identifier, amount, refund time, and what the addresses and the hash are written as *)
Theorem C87_equal_texts H a b : contract_eq H a (Some b) = Ok true <->
  k_unspent a = k_unspent b /\ k_id a = k_id b /\ k_amount a = k_amount b /\
  exists ja jb, cond_json H (o_cond (contract_output a)) = Ok ja /\ cond_json H (o_cond (contract_output b)) = Ok jb /\ ja = jb.
Proof.
  unfold contract_eq, contract_output. cbn [o_cond cond_json]. split.
  - destruct (Bool.eqb (k_unspent a) (k_unspent b)) eqn:U; cbn [negb]; [apply Bool.eqb_prop in U|discriminate]. destruct (listN_eqb (k_id a) (k_id b)) eqn:I; cbn [negb]; [apply listN_eqb_eq in I|discriminate].
    destruct (N.eqb_spec (k_amount a) (k_amount b)) as [M|M]; cbn [negb]; [|discriminate]. intros E.
    apply bind_ok in E as (sa & E1 & E). apply bind_ok in E as (ra & E2 & E). apply bind_ok in E as (sb & E3 & E). apply bind_ok in E as (rb & E4 & E). apply ok_inj in E.
    apply andb_prop in E as (E & L). apply andb_prop in E as (E & Q). apply andb_prop in E as (P & R). apply listN_eqb_eq in P, R, Q. apply Z.eqb_eq in L.
    rewrite E1, E2, E3, E4. cbn [bind]. repeat (split; [assumption|]). do 2 eexists. split; [reflexivity|]. split; [reflexivity|]. now rewrite P, R, Q, L.
  - intros (-> & -> & -> & ja & jb & A & B & <-). rewrite Bool.eqb_reflx, listN_eqb_refl, N.eqb_refl. cbn [negb].
    apply bind_ok in A as (sa & E1 & A). apply bind_ok in A as (ra & E2 & A). apply bind_ok in B as (sb & E3 & B). apply bind_ok in B as (rb & E4 & B). apply ok_inj in A, B.
    rewrite E1, E2, E3, E4. cbn [bind]. subst ja. injection B as P R Q L. rewrite P, R, Q, L, !listN_eqb_refl, Z.eqb_refl. reflexivity.
Qed.
Print Assumptions C87_equal_texts.
(** Whether a secret is the one of a contract: it is exactly if its SHA-256 hash is the contract's. *)
Theorem C87_secret S256 k v h : (forall x, hash32 (S256 x)) -> k_hash k = Some h ->
  verify_secret S256 k v = Ok true <-> exists s, secret_new v = Ok s /\ S256 s = h.
Proof.
  intros HS Hk. unfold verify_secret, hash_cmp. rewrite Hk. split.
  - intros E. apply bind_ok in E as (s & Es & E). apply bind_ok in E as (d & Ed & E). apply ok_inj in E. apply listN_eqb_eq in E. subst d.
    exists s. split; [exact Es|]. apply hash_new_ok in Ed as (Ed & _). cbn [bd_norm] in Ed. apply ok_inj in Ed. exact Ed.
  - intros (s & -> & E). cbn [bind]. replace (hash_new (BVBytes (S256 s))) with (@Ok bytes (S256 s)) by (symmetry; apply hash_new_ok; split; [reflexivity|right; apply (HS s)]). cbn [bind]. rewrite E, listN_eqb_refl. reflexivity.
Qed.
Print Assumptions C87_secret.

(** ** The text of a contract *)
Lemma state_iff local k t s : showable (local (k_refund k)) -> status_str local k t = Ok s <-> state_shown local k t s.
Proof.
  intros SH. unfold status_str, state_shown. destruct (k_unspent k).
  - destruct (Z.leb_spec (k_refund k) t) as [L|L].
    + split.
      * intros E. apply ok_inj in E. right. split; [reflexivity|]. eexists. split; [now apply date_iff|]. left. split; [exact L|]. now rewrite <- E.
      * intros [(X & _)|(_ & d & D & [(_ & ->)|(Q & _)])]; [discriminate| |lia]. apply date_iff in D; [|exact SH]. now rewrite D.
    + split.
      * intros E. apply bind_ok in E as (e & Ee & E). apply ok_inj in E. right. split; [reflexivity|]. eexists. split; [now apply date_iff|]. right. split; [exact L|]. exists e.
        split; [apply (duration_iff (fun _ _ _ _ => Err ValueError)); [lia|exact Ee]|now rewrite <- E].
      * intros [(X & _)|(_ & d & D & [(Q & _)|(_ & e & De & ->)])]; [discriminate|lia|]. apply date_iff in D; [|exact SH]. unfold secs_str. rewrite (proj2 (duration_iff _ (k_refund k - t) e ltac:(lia)) De). cbn [bind]. now rewrite D.
  - split; [intros E; apply ok_inj in E; left; auto|]. intros [(_ & ->)|(X & _)]; [reflexivity|discriminate].
Qed.
Lemma strip_lines b h : strip (nl ++ (s2b "Atomic Swap Contract " ++ b ++ s2b "Secret Hash: " ++ h) ++ nl) =
  s2b "Atomic Swap Contract " ++ b ++ s2b "Secret Hash:" ++ (match h with [] => [] | _ => 32 :: h end) \/ ~ Forall (fun c => 33 <= c < 128) h.
Proof.
  destruct (forallb (fun c => (33 <=? c) && (c <? 128)) h) eqn:F.
  2:{ right. intros A. apply Bool.not_true_iff_false in F. apply F. apply forallb_forall. intros x I. rewrite Forall_forall in A. specialize (A x I). lia. }
  left. rewrite forallb_forall in F. assert (B : Forall blank nl) by (apply Forall_forall; intros x I; vm_compute in I; unfold blank; intuition lia). destruct h as [|c h'].
  - replace (nl ++ (s2b "Atomic Swap Contract " ++ b ++ s2b "Secret Hash: " ++ []) ++ nl) with (nl ++ (s2b "Atomic Swap Contract " ++ b ++ s2b "Secret Hash:") ++ 32 :: nl).
    2:{ change (s2b "Secret Hash: " ++ []) with (s2b "Secret Hash:" ++ [32]). rewrite <- !app_assoc. reflexivity. }
    rewrite app_nil_r. apply strip_surround; [exact B|constructor; [unfold blank; lia|exact B]| | |discriminate].
    + intros x q E. injection E as <- _. reflexivity.
    + intros x q E. change (s2b "Secret Hash:") with (s2b "Secret Hash" ++ [58]) in E. rewrite !app_assoc in E. apply app_inj_tail in E as (_ & <-). reflexivity.
  - change (s2b "Secret Hash:" ++ 32 :: c :: h') with (s2b "Secret Hash: " ++ c :: h'). apply strip_surround; [exact B|exact B| | |discriminate].
    + intros x q E. injection E as <- _. reflexivity.
    + intros x q E. destruct (@exists_last _ (c :: h')) as (t & y & Ey); [discriminate|]. rewrite Ey, !app_assoc in E. apply app_inj_tail in E as (_ & <-).
      specialize (F y). rewrite Ey in F. assert (Q : In y (t ++ [y])) by (apply in_or_app; right; left; reflexivity). specialize (F Q). unfold is_pyspace, is_space. lia.
Qed.
(** The text of a contract is the one specified, where the local time of its refund can be shown (the years Python can show). *)
Theorem C87_text H local c s : hash_ok H -> of_bytes (kt_contract c) -> showable (local (k_refund (kt_contract c))) ->
  contract_repr H local c = Ok s <-> contract_shown H local (kt_contract c) (kt_time c) s.
Proof.
  intros HO (Wi & Ws & Wr & Wh) SH. unfold contract_repr, contract_shown. destruct c as [k t]. cbn [kt_contract kt_time] in *. rewrite hash_text.
  assert (HX : Forall (fun c => 33 <= c < 128) (hex (hash_bytes k))).
  { assert (L : lower_text (hex (hash_bytes k)) (hash_bytes k)) by now apply lower_hex. destruct L as (_ & L). eapply Forall_impl; [|exact L]. unfold lower_digit. intros; lia. }
  assert (X : forall st se re, strip (line_break ++ s2b "Atomic Swap Contract " ++ hash_str (k_id k) ++ s2b ":" ++ line_break ++ st ++ line_break ++ s2b "Value: " ++ tft_str (k_amount k) ++
             line_break ++ s2b "Sender: " ++ se ++ line_break ++ s2b "Receiver: " ++ re ++ line_break ++ s2b "Secret Hash: " ++ hex (hash_bytes k) ++ line_break) =
    s2b "Atomic Swap Contract " ++ hash_str (k_id k) ++ s2b ":" ++ nl ++ st ++ nl ++ s2b "Value: " ++ tft_str (k_amount k) ++ nl ++ s2b "Sender: " ++ se ++ nl ++ s2b "Receiver: " ++ re ++ nl ++
        s2b "Secret Hash:" ++ (match hex (hash_bytes k) with [] => [] | _ => 32 :: hex (hash_bytes k) end)).
  { intros st se re. change line_break with nl.
    destruct (strip_lines (hash_str (k_id k) ++ s2b ":" ++ nl ++ st ++ nl ++ s2b "Value: " ++ tft_str (k_amount k) ++ nl ++ s2b "Sender: " ++ se ++ nl ++ s2b "Receiver: " ++ re ++ nl) (hex (hash_bytes k))) as [E|E]; [|contradiction].
    rewrite <- !app_assoc in E. rewrite E. reflexivity. }
  split.
  - intros E. apply bind_ok in E as (st & Est & E). apply bind_ok in E as (se & Ese & E). apply bind_ok in E as (re & Ere & E). apply ok_inj in E. rewrite X in E. subst s.
    exists (hash_str (k_id k)), st, (tft_str (k_amount k)), se, re, (hex (hash_bytes k)). split; [now apply id_shown_iff|]. split; [now apply state_iff|]. split; [now apply tft_shown_iff|].
    split; [now apply C84_printed|]. split; [now apply C84_printed|]. split; [now apply lower_hex|reflexivity].
  - intros (id & st & v & se & re & h & I & S0 & V & Se & Re & Hh & ->). apply id_shown_iff in I; [|exact Wi]. apply state_iff in S0; [|exact SH]. apply tft_shown_iff in V. apply C84_printed in Se; [|exact HO|exact Ws]. apply C84_printed in Re; [|exact HO|exact Wr].
    apply lower_hex in Hh; [|exact Wh]. subst id v h. rewrite S0. cbn [bind]. rewrite Se. cbn [bind]. rewrite Re. cbn [bind]. rewrite X. reflexivity.
Qed.
Print Assumptions C87_text.

(** ** What the text tells *)
Lemma line_split (a b x y : pystr) : Forall (fun c => 32 <= c) a -> Forall (fun c => 32 <= c) b -> a ++ 10 :: x = b ++ 10 :: y -> a = b /\ x = y.
Proof.
  revert b. induction a as [|c a IH]; intros b A B E.
  - destruct b as [|d b]; [injection E as <-; auto|]. injection E as <- _. inversion B. lia.
  - inversion A as [|? ? C A']. destruct b as [|d b]; [injection E as -> _; lia|]. injection E as <- E. inversion B as [|? ? D B']. destruct (IH b A' B' E) as (-> & ->). auto.
Qed.
Lemma state_chars local k t s : state_shown local k t s -> Forall (fun c => 32 <= c) s.
Proof.
  intros [(_ & ->)|(_ & d & D & [(_ & ->)|(_ & e & Ee & ->)])]; [chars| |]; apply date_chars in D; [|apply duration_chars in Ee]; repeat (apply Forall_app; split); try assumption; chars.
Qed.
Lemma printed_chars H u s : printed H u s -> Forall (fun c => 32 <= c) s.
Proof. intros (n & a & b & c & _ & -> & A & B & C). apply lower_chars in A, B, C. repeat (apply Forall_app; split); assumption. Qed.
Lemma tail_eq (h h' : pystr) : (match h with [] => [] | _ => 32 :: h end) = (match h' with [] => [] | _ => 32 :: h' end) -> h = h'.
Proof. destruct h, h'; intros E; try discriminate; [reflexivity|]. now injection E as -> ->. Qed.
Lemma lower_inj s b b' : lower_text s b -> lower_text s b' -> wf_bytes b -> wf_bytes b' -> b = b'.
Proof. intros A B W W'. apply lower_hex in A, B; [|assumption..]. subst s. pose proof (unhex_hex W) as X. rewrite B, (unhex_hex W') in X. congruence. Qed.
(** the end of the date is where the sentence goes on *)
Lemma date_length s t : date_shown s t -> exists a b, s = a ++ b /\ length b = 15%nat /\ Forall (fun c => c <> 47) a /\ exists c, b = 47 :: c.
Proof.
  destruct t as [[[[[y mo] d] h] mi] se]. intros (a & b & c & x & f & g & (v & (W & _) & _) & B & C & X & F & G & ->).
  exists a, (s2b "/" ++ b ++ s2b "/" ++ c ++ s2b " " ++ x ++ s2b ":" ++ f ++ s2b ":" ++ g). split; [reflexivity|].
  destruct B as (? & _ & Lb & _), C as (? & _ & Lc & _), X as (? & _ & Lx & _), F as (? & _ & Lf & _), G as (? & _ & Lg & _).
  split; [rewrite !app_length, Lb, Lc, Lx, Lf, Lg; reflexivity|]. split; [|eexists; reflexivity]. apply decimal_chars in W. eapply Forall_impl; [|exact W]. intros ? ?. cbv beta in *. lia.
Qed.
Lemma date_end d d' t t' x y : date_shown d t -> date_shown d' t' -> d ++ x = d' ++ y -> d = d' /\ x = y.
Proof.
  intros A B E. apply date_length in A as (a & b & -> & L & F & c & ->), B as (a' & b' & -> & L' & F' & c' & ->). rewrite <- !app_assoc in E. cbn [app length] in *.
  assert (Q : a = a' /\ c ++ x = c' ++ y).
  { clear L L'. revert a' F' E. induction a as [|k a IH]; intros a' F' E.
    - destruct a' as [|k' a']; [injection E as E; auto|]. injection E as <- _. inversion F'. congruence.
    - inversion F as [|? ? K Fa]. destruct a' as [|k' a']; [injection E as -> _; congruence|]. inversion F' as [|? ? K' Fa']. injection E as <- E. destruct (IH Fa a' Fa' E) as (-> & Q). auto. }
  destruct Q as (-> & Q). assert (LL : length c = length c') by lia. destruct (app_inj_len _ _ _ _ LL Q) as (-> & ->). auto.
Qed.
Theorem C87_tells H local t a b s : hash_ok H -> hash32 (k_id a) -> hash32 (k_id b) -> complete_contract a -> complete_contract b ->
  contract_shown H local a t s -> contract_shown H local b t s -> agree local t a b.
Proof.
  intros HO (Ia & Wia) (Ib & Wib) (Sa & Ra & ha & Ha & La & Wa) (Sb & Rb & hb & Hb & Lb & Wb)
    (i1 & st1 & v1 & se1 & re1 & h1 & I1 & T1 & V1 & P1 & Q1 & X1 & ->) (i2 & st2 & v2 & se2 & re2 & h2 & I2 & T2 & V2 & P2 & Q2 & X2 & E).
  apply app_inv_head in E. change (nl ++ ?r) with (10 :: repeat 32 8 ++ r) in E.
  unfold nl in E. cbn [app] in E.
  assert (CI : forall i k, id_shown i k -> Forall (fun c => 32 <= c) (i ++ s2b ":")) by (intros i k D; apply Forall_app; split; [exact (lower_chars _ _ D)|chars]).
  pose proof (CI _ _ I1) as C1. pose proof (CI _ _ I2) as C2. rewrite (app_assoc i1), (app_assoc i2) in E. apply line_split in E as (Ei & E); [|assumption..]. apply app_inv_tail in Ei. subst i2. clear C1 C2.
  apply app_inv_head in E. apply line_split in E as (Es & E); [|eapply state_chars; eassumption..]. subst st2.
  apply app_inv_head in E. apply app_inv_head in E. apply line_split in E as (Ev & E); [|eapply tft_chars; eassumption..]. subst v2.
  apply app_inv_head in E. apply app_inv_head in E. apply line_split in E as (Ese & E); [|eapply printed_chars; eassumption..]. subst se2.
  apply app_inv_head in E. apply app_inv_head in E. apply line_split in E as (Ere & E); [|eapply printed_chars; eassumption..]. subst re2.
  apply app_inv_head in E. apply app_inv_head in E. apply tail_eq in E. subst h2.
  assert (KI : k_id a = k_id b).
  { unfold id_shown in I1, I2. destruct (k_id a) as [|xa la] eqn:Ka; [discriminate|]. destruct (k_id b) as [|xb lb] eqn:Kb; [discriminate|]. exact (lower_inj _ _ _ I1 I2 Wia Wib). }
  assert (KH : k_hash a = k_hash b). { unfold hash_bytes in X1, X2. rewrite Ha, Hb in *. f_equal. exact (lower_inj _ _ _ X1 X2 Wa Wb). }
  assert (KS : k_sender a = k_sender b) by (apply C84_printed in P1, P2; [|assumption|apply Sb|assumption|apply Sa]; exact (uh_str_inj H _ _ _ HO Sa Sb P1 P2)).
  assert (KR : k_receiver a = k_receiver b) by (apply C84_printed in Q1, Q2; [|assumption|apply Rb|assumption|apply Ra]; exact (uh_str_inj H _ _ _ HO Ra Rb Q1 Q2)).
  assert (KV : k_amount a = k_amount b) by exact (tft_shown_inj _ _ _ V1 V2).
  assert (KT : k_unspent a = k_unspent b /\ (k_unspent a = true -> (k_refund a <= t /\ k_refund b <= t /\ exists d, date_shown d (local (k_refund a)) /\ date_shown d (local (k_refund b))) \/ (t < k_refund a /\ k_refund a = k_refund b))%Z).
  { destruct T1 as [(U1 & ->)|(U1 & d1 & D1 & T1)], T2 as [(U2 & E)|(U2 & d2 & D2 & T2)].
    - split; [congruence|]. intros X. congruence.
    - exfalso. destruct T2 as [(_ & E)|(_ & e & _ & E)]; discriminate E.
    - exfalso. destruct T1 as [(_ & ->)|(_ & e & _ & ->)]; discriminate E.
    - split; [congruence|]. intros _. destruct T1 as [(L1 & ->)|(L1 & e1 & E1 & ->)], T2 as [(L2 & E)|(L2 & e2 & E2 & E)]; try discriminate E.
      + left. apply app_inv_head in E. apply app_inv_tail in E. subst d2. eauto.
      + right. split; [exact L1|]. apply app_inv_head in E. apply (date_end _ _ _ _ _ _ D1 D2) in E as (_ & E). apply app_inv_head in E. apply app_inv_tail in E. subst e2.
        assert (Z.to_N (k_refund a - t) = Z.to_N (k_refund b - t)) by (apply (duration_inj e1); [lia|lia|assumption..]). lia. }
  destruct KT as (KU & KT). repeat (split; [assumption|]). exact KT.
Qed.
Print Assumptions C87_tells.
(** Complete contracts always have a text, and two with the same text at the same time agree. *)
Theorem C87_shown H local c : hash_ok H -> complete_contract (kt_contract c) -> exists s, contract_repr H local c = Ok s.
Proof.
  intros HO (Sa & Ra & _). unfold contract_repr. rewrite !uh_str_total by assumption.
  assert (X : exists st, status_str local (kt_contract c) (kt_time c) = Ok st).
  { unfold status_str. destruct (k_unspent _); [|eauto]. destruct (Z.leb_spec (k_refund (kt_contract c)) (kt_time c)); [eauto|]. unfold secs_str, dur_str. cbn [dur_clean bind]. destruct (_ =? 0)%Z; cbn [bind]; eauto. }
  destruct X as (st & ->). cbn [bind]. eauto.
Qed.
Print Assumptions C87_shown.
Theorem C87_same_text H local a b s : hash_ok H -> complete_contract (kt_contract a) -> complete_contract (kt_contract b) -> hash32 (k_id (kt_contract a)) -> hash32 (k_id (kt_contract b)) ->
  showable (local (k_refund (kt_contract a))) -> showable (local (k_refund (kt_contract b))) -> kt_time a = kt_time b ->
  contract_repr H local a = Ok s -> contract_repr H local b = Ok s -> agree local (kt_time a) (kt_contract a) (kt_contract b).
Proof.
  intros HO Ca Cb Ia Ib Sa Sb T Ea Eb.
  assert (OB : forall k, complete_contract k -> hash32 (k_id k) -> of_bytes k). { intros k ((_ & _ & A) & (_ & _ & B) & h & Hh & _ & C) (_ & D). unfold of_bytes, hash_bytes. rewrite Hh. auto. }
  apply C87_text in Ea; [|auto..]. apply C87_text in Eb; [|auto..]. rewrite <- T in Eb. exact (C87_tells H local _ _ _ s HO Ia Ib Ca Cb Ea Eb).
Qed.
Print Assumptions C87_same_text.

(** ** A concrete case: the contract of Prop_Swap *)
Definition exg_local : Z -> tm := fun z => (2020, 9, 13, 12, 26, z mod 60)%Z.
Example C87_ex : exists c, contract_make 7 (Some (Prop_Swap.exs_out 1 2)) (Some true) (StampInt 1599913539) = Ok c /\ complete_contract (kt_contract c) /\ hash32 (k_id (kt_contract c)) /\
  showable (exg_local (k_refund (kt_contract c))) /\ contract_eq Prop_Fulfil.ex_H2 (kt_contract c) (Some (kt_contract c)) = Ok true /\
  status_str exg_local (kt_contract c) (kt_time c) = Ok (s2b "Refund available at 2020/09/13 12:26:40 (in: 1d1m1s).") /\ tft_str (k_amount (kt_contract c)) = s2b "0.00000001 TFT".
Proof.
  eexists. split; [vm_compute; reflexivity|]. cbn [kt_contract kt_time k_id k_refund k_sender k_receiver k_hash k_amount].
  split. { repeat split; try (vm_compute; reflexivity); try (vm_compute; congruence). - apply Forall_forall. intros x I. vm_compute in I. intuition lia. - apply Forall_forall. intros x I. vm_compute in I. intuition lia.
    - eexists. split; [reflexivity|]. split; [reflexivity|]. apply Forall_forall. intros x I. vm_compute in I. intuition lia. }
  split. { split; [reflexivity|]. apply Forall_forall. intros x I. vm_compute in I. intuition lia. }
  split. { vm_compute. intuition congruence. }
  split; [vm_compute; reflexivity|]. split; vm_compute; reflexivity.
Qed.
