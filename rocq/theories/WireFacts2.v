(** Addresses of keys and conditions, and whole transactions, are written as the fields of Spec_Wire. *)
From Verif Require Import Base BaseFacts Encoders EncodersFacts Primitive Merkle MerkleFacts Types TypesFacts Conditions ConditionFacts
  Fulfillments ThreeBotTypes Txn Spec_Forms Spec_Merkle Spec_Wire WireFacts.
From Coq Require Import ZifyBool ZifyNat ZifyN.

Lemma lower_iff t : forall s, lower_than s t <-> str_leb t s = false.
Proof.
  induction t as [|d t IH]; intros [|c s]; cbn [str_leb].
  - split; [inversion 1 | discriminate].
  - split; [inversion 1 | discriminate].
  - split; [reflexivity | constructor].
  - split.
    + inversion 1; subst.
      * lia.
      * assert (E : str_leb t s = false) by (apply IH; assumption). rewrite E. lia.
    + intro E. destruct (N.lt_trichotomy c d) as [L|[->|L]]; [constructor; exact L | | lia].
      apply lower_later, IH. destruct (str_leb t s); [lia | reflexivity].
Qed.
Lemma lower_eq_iff s t : s = t \/ lower_than s t <-> str_leb s t = true.
Proof.
  rewrite lower_iff. split.
  - intros [->|L]; [apply str_leb_refl|]. destruct (str_leb_total s t) as [E|E]; [exact E | congruence].
  - intro E. destruct (str_leb t s) eqn:F; [left; apply str_leb_antisym; assumption | right; reflexivity].
Qed.

Section Select.
Context {A : Type}.
Notation kv := (pystr * A)%type.
Inductive sel : list kv -> list kv -> Prop :=
| sel_nil : sel [] []
| sel_next b p a r : (forall q, In q b -> str_leb (fst q) (fst p) = false) -> (forall q, In q a -> str_leb (fst p) (fst q) = true) ->
    sel (b ++ a) r -> sel (b ++ p :: a) (p :: r).
Lemma sel_insert k (x : A) l m : sel l m -> sel ((k, x) :: l) (insert_by k x m).
Proof.
  induction 1 as [|b [k' y] a r B Af S IH]; cbn [insert_by].
  - apply (sel_next [] (k, x) [] []); [intros q [] | intros q [] | constructor].
  - destruct (str_leb k k') eqn:E.
    + apply (sel_next [] (k, x) (b ++ (k', y) :: a)); [intros q [] | | apply sel_next; assumption]. intros q Q. cbn [fst] in *.
      apply in_app_iff in Q as [Q|[<-|Q]].
      * apply B in Q. destruct (str_leb_total (fst q) k') as [F|F]; [congruence|]. eapply str_leb_trans; eassumption.
      * exact E.
      * apply Af in Q. eapply str_leb_trans; eassumption.
    + apply (sel_next ((k, x) :: b) (k', y) a); [|exact Af|exact IH]. intros q [<-|Q]; [exact E | apply B; exact Q].
Qed.
Lemma sel_isort l : sel l (isort l).
Proof. induction l as [|[k x] l IH]; cbn [isort]; [constructor | apply sel_insert; exact IH]. Qed.
Lemma split_three (b : list kv) : forall p a b' p' a', b ++ p :: a = b' ++ p' :: a' ->
  (b = b' /\ p = p' /\ a = a') \/ (In p b' /\ In p' a) \/ (In p' b /\ In p a').
Proof.
  induction b as [|x b IH]; intros p a [|x' b'] p' a' E; cbn [app] in E.
  - injection E as <- <-. auto.
  - injection E as <- ->. right. left. split; [left; reflexivity | apply in_or_app; right; left; reflexivity].
  - injection E as -> <-. right. right. split; [left; reflexivity | apply in_or_app; right; left; reflexivity].
  - injection E as <- E. destruct (IH _ _ _ _ _ E) as [(-> & -> & ->)|[(I & J)|(I & J)]]; [auto | right; left; cbn [In]; auto | right; right; cbn [In]; auto].
Qed.
Lemma sel_fun l m : sel l m -> forall m', sel l m' -> m = m'.
Proof.
  induction 1 as [|b p a r B Af S IH]; intros m' S'.
  - inversion S' as [E|b p a r _ _ _ E]; [reflexivity|]. destruct b; discriminate.
  - inversion S' as [E|b' p' a' r' B' A' T E]; [destruct b; discriminate|]. subst m'.
    destruct (split_three _ _ _ _ _ _ E) as [(-> & -> & ->)|[(I & J)|(I & J)]].
    + f_equal. apply IH. exact T.
    + apply A' in J. apply B in I. congruence.
    + apply B' in I. apply Af in J. congruence.
Qed.
End Select.

Section Hash.
Variable H : bytes -> bytes.
Notation text := (fun u s => uh_str H u = Ok s).
Definition tagged (u : uh) : pystr * uh := (ustr H u, u).
Lemma text_ustr u s : uh_str H u = Ok s -> ustr H u = s.
Proof. intro E. unfold ustr. rewrite E. reflexivity. Qed.
Lemma text_ok u : is_ok (uh_str H u) = true -> uh_str H u = Ok (ustr H u).
Proof. unfold ustr. destruct (uh_str H u); [reflexivity | discriminate]. Qed.
Lemma sort_iff us vs : sort_uhs H us = Ok vs <-> Forall (fun u => is_ok (uh_str H u) = true) us /\ vs = map snd (isort (map tagged us)).
Proof.
  unfold sort_uhs. split.
  - intro E. apply bind_ok in E as (ks & M & E). apply ok_inj in E. subst vs.
    assert (K : Forall (fun u => is_ok (uh_str H u) = true) us /\ combine ks us = map tagged us).
    { apply (proj1 (mapM_Forall2_iff _ _ _)) in M. induction M as [|u k us ks E M (F & IH)]; [split; [constructor | reflexivity]|]. split.
      - constructor; [rewrite E; reflexivity | exact F].
      - cbn [combine map]. unfold tagged at 1. rewrite IH, (text_ustr _ _ E). reflexivity. }
    destruct K as (F & ->). auto.
  - intros (F & ->). rewrite (mapM_total _ (ustr H)).
    + cbn [bind]. rewrite combine_map. reflexivity.
    + eapply Forall_impl; [|exact F]. exact text_ok.
Qed.
Lemma by_text_sel us vs : by_text text us vs <-> Forall (fun u => is_ok (uh_str H u) = true) us /\ sel (map tagged us) (map tagged vs).
Proof.
  split.
  - induction 1 as [|b u a s r E B Af T (F & IH)]; [split; constructor|]. split.
    + apply Forall_app in F as (Fb & Fa). apply Forall_app. split; [exact Fb|]. constructor; [rewrite E; reflexivity | exact Fa].
    + cbn [map]. rewrite map_app in *. cbn [map]. apply sel_next; [| | exact IH].
      * intros q Q. apply in_map_iff in Q as (v & <- & Q). destruct (B v Q) as (t & Et & L). cbn [tagged fst]. rewrite (text_ustr _ _ Et), (text_ustr _ _ E).
        apply lower_iff. exact L.
      * intros q Q. apply in_map_iff in Q as (v & <- & Q). destruct (Af v Q) as (t & Et & L). cbn [tagged fst]. rewrite (text_ustr _ _ Et), (text_ustr _ _ E).
        apply lower_eq_iff. exact L.
  - intros (F & S). remember (map tagged us) as l eqn:El. remember (map tagged vs) as m eqn:Em. revert us vs F El Em.
    induction S as [|b p a r B Af S IH]; intros us vs F El Em.
    + destruct us; [|discriminate]. destruct vs; [|discriminate]. constructor.
    + destruct vs as [|v vs]; [discriminate|]. cbn [map] in Em. injection Em as -> ->.
      symmetry in El. apply map_eq_app in El as (b' & a' & -> & <- & El). destruct a' as [|u a']; [discriminate|]. cbn [map] in El. injection El as _ -> <-.
      apply Forall_app in F as (Fb & Fa). inversion Fa as [|? ? Fu Fa']; subst. rewrite Forall_forall in Fb, Fa'. apply (by_text_next _ _ _ _ (ustr H v)).
      * apply text_ok. exact Fu.
      * intros w W. exists (ustr H w). split; [apply text_ok, Fb, W|]. apply lower_iff. apply (B (tagged w)). apply in_map. exact W.
      * intros w W. exists (ustr H w). split; [apply text_ok, Fa', W|]. apply lower_eq_iff. apply (Af (tagged w)). apply in_map. exact W.
      * apply IH; [|symmetry; apply map_app | reflexivity]. apply Forall_app. split; apply Forall_forall; assumption.
Qed.
Lemma tagged_snd l : Forall (fun p => p = tagged (snd p)) l -> map tagged (map snd l) = l.
Proof. intro F. induction F as [|p l E F IH]; [reflexivity|]. cbn [map]. rewrite IH, <- E. reflexivity. Qed.
Lemma isort_tagged us : map tagged (map snd (isort (map tagged us))) = isort (map tagged us).
Proof.
  apply tagged_snd. rewrite Forall_forall. intros p I. eapply Permutation_in in I; [|apply isort_perm]. apply in_map_iff in I as (u & <- & _). reflexivity.
Qed.
Lemma by_text_iff us vs : sort_uhs H us = Ok vs <-> by_text text us vs.
Proof.
  rewrite sort_iff, by_text_sel. split; intros (F & E); (split; [exact F|]).
  - subst vs. rewrite isort_tagged. apply sel_isort.
  - assert (K := sel_fun _ _ E _ (sel_isort (map tagged us))). rewrite <- K, map_map. cbn [tagged snd]. symmetry. apply map_id.
Qed.

Lemma key_address_iff p u : pk_unlockhash H p = Ok u <-> key_address H p u.
Proof.
  unfold pk_unlockhash, pk_uh_input, key_address. split.
  - intro E. apply bind_ok in E as (d & Ed & E). apply ok_inj in E. exists d. split; [apply (enc_sized_sia _ _ (enc_pk_sia p)); exact Ed | symmetry; exact E].
  - intros (d & Ed & ->). apply (enc_sized_sia _ _ (enc_pk_sia p)) in Ed. rewrite Ed. reflexivity.
Qed.
Lemma enc_F2 {A} (f : A -> res bytes) (P : A -> field) l ls : (forall a, enc (f a) (P a)) -> (mapM f l = Ok ls <-> Forall2 (fun (F : field) b => F b) (map P l) ls).
Proof.
  intro I. rewrite mapM_Forall2_iff. split.
  - induction 1 as [|a b l ls E M IH]; constructor; [apply I; exact E | exact IH].
  - revert ls. induction l as [|a l IH]; intros ls M; inversion M; subst; constructor; [apply I; assumption | apply IH; assumption].
Qed.
Lemma leaves_iff us n ls : multi_leaves H us n = Ok ls <->
  exists vs, by_text text us vs /\ Forall2 (fun (F : field) b => F b) (number_in 8 (Z.of_nat (length us)) :: map address vs ++ [number_in 8 n]) ls.
Proof.
  unfold multi_leaves. split.
  - intro E. apply bind_ok in E as (vs & S & E). apply bind_ok in E as (a & Ea & E). apply bind_ok in E as (m & M & E). apply bind_ok in E as (b & Eb & E). apply ok_inj in E. subst ls.
    assert (L : length vs = length us) by (apply sort_iff in S as (_ & ->); rewrite map_length, (Permutation_length (isort_perm _)), map_length; reflexivity).
    exists vs. split; [apply by_text_iff; exact S|]. constructor; [rewrite <- L; apply enc_sia_int; exact Ea|]. apply Forall2_app.
    + apply (enc_F2 uh_sia address _ _ enc_uh_sia). exact M.
    + constructor; [apply enc_sia_int; exact Eb | constructor].
  - intros (vs & S & F). apply by_text_iff in S. rewrite S. cbn [bind].
    assert (L : length vs = length us) by (apply sort_iff in S as (_ & ->); rewrite map_length, (Permutation_length (isort_perm _)), map_length; reflexivity). rewrite L.
    inversion F as [|x a y r Ea Fr]; subst. apply enc_sia_int in Ea. rewrite Ea. cbn [bind].
    apply Forall2_app_inv_l in Fr as (m & t & M & T & ->). apply (enc_F2 uh_sia address _ _ enc_uh_sia) in M. rewrite M. cbn [bind].
    inversion T as [|x' b y' r' Eb Fr']; subst. inversion Fr'; subst. apply enc_sia_int in Eb. rewrite Eb. reflexivity.
Qed.
Lemma paid_iff k : forall u, cond_unlockhash H k = Ok u <-> paid_to H text k u.
Proof.
  induction k as [|v|s r h l|l k IH|us n]; intro u; cbn [cond_unlockhash].
  - split; [intros [= <-]; constructor | inversion 1; reflexivity].
  - split; [intros [= <-]; constructor | inversion 1; reflexivity].
  - unfold swap_uh_input. split.
    + intro E. apply bind_ok in E as (d & Ed & E). apply ok_inj in E. subst u. constructor. apply (enc_sized_sia _ _ (enc_cond_riv_data (CSwap s r h l))). exact Ed.
    + inversion 1 as [| |? ? ? ? d Ed| |]; subst. apply (enc_sized_sia _ _ (enc_cond_riv_data (CSwap s r h l))) in Ed. rewrite Ed. reflexivity.
  - rewrite IH. split; [constructor; assumption | inversion 1; assumption].
  - split.
    + intro E. apply bind_ok in E as (ls & L & E). apply bind_ok in E as (rt & R & E). apply ok_inj in E. subst u.
      apply leaves_iff in L as (vs & S & F). apply (paid_multi _ _ us n vs ls rt S F). apply root_iff; [|exact R]. intros ->. inversion F.
    + inversion 1 as [| | | |? ? vs ls rt S F M]; subst. assert (L : multi_leaves H us n = Ok ls) by (apply leaves_iff; eauto). rewrite L. cbn [bind].
      apply root_iff in M; [rewrite M; reflexivity|]. intros ->. inversion F.
Qed.
Lemma enc_at {A} (r : res A) (w : A -> res bytes) (P : A -> Prop) (F : A -> field) : (forall a, r = Ok a <-> P a) -> (forall a, enc (w a) (F a)) ->
  enc (do a <- r; w a) (fun b => exists a, P a /\ F a b).
Proof.
  intros I J b. split.
  - intro E. apply bind_ok in E as (a & Ea & E). exists a. split; [apply I; exact Ea | apply J; exact E].
  - intros (a & Pa & Fa). apply I in Pa. rewrite Pa. cbn [bind]. apply J. exact Fa.
Qed.
Lemma enc_old_owner i : enc (legacy_in_sig H i) (old_owner H i).
Proof.
  apply enc_cons; [apply enc_exactly|]. apply enc_one. unfold old_key. destruct (i_ff i) as [p s|p s h|ps]; cbn [ff_pk bind].
  1,2: apply enc_at; [apply key_address_iff | apply enc_uh_sia]. apply enc_never.
Qed.
Lemma enc_old_given o : enc (legacy_out H o) (old_given H text o).
Proof. apply enc_cons; [apply enc_amt_sia|]. apply enc_one. apply enc_at; [apply paid_iff | apply enc_uh_sia]. Qed.
Lemma enc_old_taken i : enc (legacy_in i) (old_taken i).
Proof.
  unfold legacy_in, old_taken, old_key, old_signature. apply enc_cons; [apply enc_exactly|]. apply enc_cons; [apply enc_byte; reflexivity|].
  destruct (i_ff i) as [p s|p s h|ps]; cbn [ff_pk bind].
  1,2: apply enc_cons; [apply enc_sized_sia, enc_pk_sia | apply enc_one, enc_sia_slice, enc_exactly].
  apply enc_cons; [apply enc_never | apply enc_one, enc_never].
Qed.

Ltac one := first [apply enc_exactly | apply enc_riv_int | apply enc_sia_byte | apply enc_amt_sia | apply enc_amt_riv | apply enc_xs_sia | apply enc_xs_riv
  | apply enc_ids_sia | apply enc_ids_riv | apply enc_pk_riv | apply enc_uh_sia | apply enc_uh_riv | apply enc_refund | apply enc_bsig | apply enc_pair_len | apply enc_ins
  | apply enc_ff_sia | apply enc_maf
  | apply enc_sia_slice, enc_exactly
  | apply enc_sia_list; first [exact enc_out_sia | exact enc_amt_sia | exact enc_in_sia | exact enc_old_given | exact enc_old_taken]
  | apply enc_riv_list; first [exact enc_in_riv | exact enc_na | exact enc_bn]
  | apply enc_each; first [exact enc_old_owner | exact enc_na | exact enc_bn] ].
Ltac all_fields := repeat (apply enc_cons; [one|]); try (apply enc_one; one).

Lemma enc_name t : enc (Ok (specifier t)) (name_of t).
Proof. destruct t as [s|m|c|g|r|b|u|n]; try apply enc_exactly. unfold specifier, name_of. destruct (m_new m); apply enc_exactly. Qed.
Lemma enc_minted m : enc (match m with MCond c => cond_sia c | MCoins os => sia_list out_sia os end) (minted m).
Proof. destruct m; [apply enc_cond_sia | apply enc_sia_list, enc_out_sia]. Qed.
Lemma signed_iff t xs : enc (sig_input H t xs) (fields (signed H text t xs)).
Proof.
  destruct t as [s|m|c|g|r|b|u|n]; unfold sig_input, signed.
  - destruct (s_legacy s); all_fields.
  - apply enc_cons; [apply enc_sia_byte|]. apply enc_cons; [apply enc_name|]. apply enc_cons; [one|]. apply enc_cons; [one|]. apply enc_cons; [apply enc_minted|]. all_fields.
  - all_fields.
  - all_fields.
  - destruct (r_cin r); cbn [got bind]; [all_fields | apply enc_one, enc_never].
  - all_fields.
  - all_fields.
  - destruct (n_cin n); cbn [got bind]; [all_fields | apply enc_one, enc_never].
Qed.
Lemma contents_iff t : enc (data_bytes H t) (fields (contents H text t)).
Proof.
  destruct t as [s|m|c|g|r|b|u|n]; unfold data_bytes, contents.
  - destruct (s_legacy s); all_fields.
  - apply enc_cons; [one|]. apply enc_cons; [one|]. apply enc_cons; [apply enc_minted|]. all_fields.
  - all_fields.
  - all_fields.
  - all_fields.
  - cbn [app]. do 6 (apply enc_cons; [one|]). apply enc_app; [apply enc_maybe | all_fields].
  - cbn [app]. do 2 (apply enc_cons; [one|]). apply enc_app; [apply enc_changes, enc_na|]. apply enc_app; [apply enc_changes, enc_bn|].
    do 2 (apply enc_cons; [one|]). apply enc_app; [apply enc_maybe | all_fields].
  - cbn [app]. do 4 (apply enc_cons; [one|]). apply enc_cons; [destruct (n_refund n); apply enc_riv_int|]. do 3 (apply enc_cons; [one|]). apply enc_maybe.
Qed.
Lemma written_iff t : enc (binary_encode H t) (written H text t).
Proof.
  assert (C := contents_iff t). unfold binary_encode, written. destruct t as [s|m|c|g|r|b|u|n]; [destruct (s_legacy s)|..].
  2: { apply enc_cons; [apply enc_byte; reflexivity | apply enc_one, enc_sized_sia, C]. }
  all: apply enc_cons; [|exact C]. all: try (apply enc_byte; reflexivity).
  cbn [version number_of]. destruct (m_new m); apply enc_byte; reflexivity.
Qed.
Lemma identified_iff t : enc (id_input H t) (identified H text t).
Proof.
  assert (C := contents_iff t). unfold id_input, identified. destruct t as [s|m|c|g|r|b|u|n]; [apply written_iff|..]; (apply enc_cons; [apply enc_name | exact C]).
Qed.
Lemma output_iff (stake : bool) t z : enc (outputid_input H (if stake then stake_spec t else coin_spec t) t z) (output_field H text stake t z).
Proof.
  unfold outputid_input, output_field. apply enc_cons; [|apply enc_cons; [apply identified_iff | apply enc_one, enc_sia_int]].
  destruct stake, t as [s|m|c|g|r|b|u|n]; try apply enc_exactly; unfold stake_spec, coin_spec, is_legacy; destruct (s_legacy s); apply enc_exactly.
Qed.
End Hash.
