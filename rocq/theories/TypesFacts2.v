From Verif Require Import Base BaseFacts Encoders EncodersFacts Primitive Types Conditions Spec_Types TypesFacts.
From Coq Require Import ZifyBool ZifyNat ZifyN.
Ltac Zify.zify_post_hook ::= Z.div_mod_to_equations.

(** ** Base64 round trip *)
Lemma b64c_spec d : d < 64 -> unb64c (b64c d) = Some d /\ (b64c d =? 61) = false /\ b64c d < 128.
Proof.
  intros Hd. unfold b64c, unb64c.
  destruct (d <? 26) eqn:?; [|destruct (d <? 52) eqn:?; [|destruct (d <? 62) eqn:?; [|destruct (d =? 62) eqn:?]]].
  - replace ((65 <=? 65 + d) && (65 + d <=? 90)) with true by lia. repeat split; try lia. f_equal; lia.
  - replace ((65 <=? 71 + d) && (71 + d <=? 90)) with false by lia.
    replace ((97 <=? 71 + d) && (71 + d <=? 122)) with true by lia. repeat split; try lia. f_equal; lia.
  - replace ((65 <=? d - 4) && (d - 4 <=? 90)) with false by lia.
    replace ((97 <=? d - 4) && (d - 4 <=? 122)) with false by lia.
    replace ((48 <=? d - 4) && (d - 4 <=? 57)) with true by lia. repeat split; try lia. f_equal; lia.
  - replace d with 62 by lia. repeat split.
  - replace d with 63 by lia. repeat split.
Qed.

Lemma b64dec_step q left pads d s : d < 64 -> b64dec_go q left pads (b64c d :: s) =
  if q =? 0 then b64dec_go 1 d 0 s
  else if q =? 1 then do r <- b64dec_go 2 (d mod 16) 0 s; Ok ((4 * left + d / 16) :: r)
  else if q =? 2 then do r <- b64dec_go 3 (d mod 4) 0 s; Ok ((16 * left + d / 4) :: r)
  else do r <- b64dec_go 0 0 0 s; Ok ((64 * left + d) :: r).
Proof. intros Hd. destruct (b64c_spec d Hd) as (E1 & E2 & _). cbn [b64dec_go]. rewrite E2, E1. reflexivity. Qed.

Lemma list3_ind (P : bytes -> Prop) : P [] -> (forall x, P [x]) -> (forall x y, P [x; y]) ->
  (forall x y z l, P l -> P (x :: y :: z :: l)) -> forall l, P l.
Proof.
  intros H0 H1 H2 H3 l. assert (G : forall n l, (length l <= n)%nat -> P l); [|eapply G; reflexivity].
  clear l. induction n as [|n IH]; intros [|x [|y [|z l]]] L; cbn [length] in L; auto; try lia.
  apply H3, IH. lia.
Qed.

Lemma b64_go b : wf_bytes b -> b64dec_go 0 0 0 (b64enc b) = Ok b /\ Forall (fun c => c < 128) (b64enc b).
Proof.
  induction b as [|x|x y|x y z b IH] using list3_ind; intros W.
  - split; [reflexivity | constructor].
  - inversion W as [|? ? Wx _]; subst. cbn [b64enc]. split.
    + rewrite !b64dec_step by lia. change (0 =? 0) with true. change (1 =? 0) with false. change (1 =? 1) with true.
      cbn iota.
      change (b64dec_go 2 (16 * (x mod 4) mod 16) 0 [61; 61]) with (@Ok bytes []). cbn [bind]. f_equal. f_equal. lia.
    + repeat constructor; try lia; apply b64c_spec; lia.
  - inversion W as [|? ? Wx W']; subst. inversion W' as [|? ? Wy _]; subst. cbn [b64enc]. split.
    + rewrite !b64dec_step by lia. change (0 =? 0) with true. change (1 =? 0) with false. change (1 =? 1) with true.
      change (2 =? 0) with false. change (2 =? 1) with false. change (2 =? 2) with true.
      cbn iota.
      change (b64dec_go 3 (4 * (y mod 16) mod 4) 0 [61]) with (@Ok bytes []). cbn [bind]. f_equal. f_equal; [lia|]. f_equal. lia.
    + repeat constructor; try lia; apply b64c_spec; lia.
  - inversion W as [|? ? Wx W']; subst. inversion W' as [|? ? Wy W'']; subst. inversion W'' as [|? ? Wz W3]; subst.
    destruct (IH W3) as [IH1 IH2]. cbn [b64enc]. split.
    + rewrite !b64dec_step by lia. change (0 =? 0) with true. change (1 =? 0) with false. change (1 =? 1) with true.
      change (2 =? 0) with false. change (2 =? 1) with false. change (2 =? 2) with true.
      change (3 =? 0) with false. change (3 =? 1) with false. change (3 =? 2) with false.
      cbn iota. rewrite IH1. cbn [bind]. f_equal. f_equal; [lia|]. f_equal; [lia|]. f_equal; lia.
    + do 4 (constructor; [apply b64c_spec; lia|]). exact IH2.
Qed.
Lemma b64_round_trip b : wf_bytes b -> b64dec (b64enc b) = Ok b.
Proof.
  intros W. destruct (b64_go b W) as [E F]. unfold b64dec.
  replace (forallb (fun c => c <? 128) (b64enc b)) with true; [exact E|].
  symmetry. apply forallb_forall. intros c Hc. rewrite Forall_forall in F. specialize (F c Hc). cbn in F. lia.
Qed.

(** ** BinaryData *)
Lemma from_to_str k b : wf_bytes b -> from_str k (to_str k b) = Ok b.
Proof.
  intros W. destruct k; cbn [to_str from_str].
  - apply unhex_hex; exact W.
  - apply b64_round_trip; exact W.
  - change ((48 =? 48) && ((120 =? 120) || (120 =? 88))) with true. cbn iota. apply unhex_hex; exact W.
Qed.

(** All the ways a BinaryData object comes about: construction, then any number of assignments, failed ones leaving it
    unchanged. *)
Definition bd_step (d : bindata) (v : bval) : bindata := match bd_set d v with Ok d' => d' | Err _ => d end.
Definition bd_history (d : bindata) (vs : list bval) : bindata := fold_left bd_step vs d.

Definition bd_inv (d : bindata) : Prop :=
  match bd_size d with Some n => bd_val d = [] \/ lenN (bd_val d) = n | None => True end.

Lemma bd_set_inv d v d' : bd_set d v = Ok d' -> bd_inv d' /\ bd_size d' = bd_size d /\ bd_enc d' = bd_enc d.
Proof.
  unfold bd_set. intros E. apply bind_ok in E as (b & Eb & E). apply bind_ok in E as (u & Eu & E).
  injection E as <-. apply guard_ok in Eu. unfold bd_inv. cbn. split; [|auto].
  destruct (bd_size d) as [n|]; [|exact I]. unfold bd_size_ok in Eu. destruct b; [left; reflexivity | right].
  unfold lenN in *. cbn [length] in *. lia.
Qed.
Lemma bd_history_inv vs : forall d, bd_inv d ->
  bd_inv (bd_history d vs) /\ bd_size (bd_history d vs) = bd_size d /\ bd_enc (bd_history d vs) = bd_enc d.
Proof.
  induction vs as [|v vs IH]; intros d Hd; [cbn; auto|].
  cbn [bd_history fold_left]. change (fold_left bd_step vs (bd_step d v)) with (bd_history (bd_step d v) vs).
  assert (S : bd_inv (bd_step d v) /\ bd_size (bd_step d v) = bd_size d /\ bd_enc (bd_step d v) = bd_enc d).
  { unfold bd_step. destruct (bd_set d v) as [d'|] eqn:E; [apply (bd_set_inv _ _ _ E) | auto]. }
  destruct S as (S1 & S2 & S3). destruct (IH _ S1) as (T1 & T2 & T3). rewrite <- S2, <- S3. auto.
Qed.

Lemma bd_new_pos v z enc d : (0 < z)%Z -> bd_new v (Some z) enc = Ok d -> bd_inv d /\ bd_size d = Some (Z.to_N z).
Proof.
  intros Hz E. unfold bd_new in E. apply bind_ok in E as (k & Ek & E). apply bind_ok in E as (u & Eu & E).
  destruct z as [|p|p]; [lia | | lia]. apply bd_set_inv in E as (E1 & E2 & _). auto.
Qed.
Lemma bd_new_zero v enc d : bd_new v (Some 0%Z) enc = Ok d -> bd_size d = Some (lenN (bd_val d)).
Proof.
  intros E. unfold bd_new in E. apply bind_ok in E as (k & Ek & E). apply bind_ok in E as (u & Eu & E).
  apply bind_ok in E as (x & Ex & E). injection E as <-. reflexivity.
Qed.

Lemma bd_fixed_size v z enc d vs : (0 < z)%Z -> bd_new v (Some z) enc = Ok d ->
  let d' := bd_history d vs in
  (bd_val d' = [] \/ Z.of_nat (length (bd_val d')) = z) /\
  bd_sia d' = Ok (bd_val d') /\ bd_riv d' = Ok (bd_val d').
Proof.
  intros Hz E d'. destruct (bd_new_pos _ _ _ _ Hz E) as [I1 S1].
  destruct (bd_history_inv vs d I1) as (I2 & S2 & _). fold d' in I2, S2. rewrite S1 in S2.
  unfold bd_sia, bd_riv. unfold bd_inv in I2. rewrite S2 in I2 |- *. repeat split.
  destruct I2 as [I2|I2]; [left; exact I2 | right]. unfold lenN in I2. lia.
Qed.

Lemma bd_wrong_size_refused d n v b : bd_size d = Some n -> bd_norm (bd_kind (bd_enc d)) v = Ok b ->
  b <> [] -> lenN b <> n -> bd_set d v = Err ValueError.
Proof.
  intros S E B N. unfold bd_set. rewrite E. cbn [bind]. rewrite S. unfold bd_size_ok.
  destruct b; [congruence|]. replace ((lenN (n0 :: b) =? 0) || (lenN (n0 :: b) =? n)) with false; [reflexivity|].
  unfold lenN in *. cbn [length] in *. lia.
Qed.

(** JSON round trip of a BinaryData with its own size and encoding. *)
Lemma bd_json_round_trip d : wf_bytes (bd_val d) -> is_ok (strkind_of (bd_enc d)) = true -> bd_inv d ->
  (forall n, bd_size d = Some n -> n <> 0) ->
  bd_from_json (JStr (bd_str d)) (match bd_size d with Some n => Some (Z.of_N n) | None => None end) (bd_enc d) = Ok d.
Proof.
  intros W K I0 NZ. unfold bd_from_json, bd_str. set (k := bd_kind (bd_enc d)).
  assert (G : bd_norm k (match to_str k (bd_val d) with [] => BVNone | _ => BVStr (to_str k (bd_val d)) end)
              = Ok (bd_val d)).
  { destruct (to_str k (bd_val d)) eqn:E; cbn [bd_norm].
    - destruct (bd_val d) as [|x v]; [reflexivity|]. exfalso. destruct k; cbn in E; try discriminate.
      destruct v as [|y [|z v]]; discriminate.
    - rewrite <- E. apply from_to_str; exact W. }
  replace (match to_str k (bd_val d) with [] => BVNone | n :: l => BVStr (n :: l) end)
    with (match to_str k (bd_val d) with [] => BVNone | _ => BVStr (to_str k (bd_val d)) end)
    by (destruct (to_str k (bd_val d)); reflexivity).
  unfold bd_new. unfold is_ok in K. destruct (strkind_of (bd_enc d)) as [k'|] eqn:Ek; [|discriminate]. cbn [bind].
  destruct d as [sz enc b]. cbn [bd_size bd_enc bd_val] in *. destruct sz as [n|].
  - unfold bd_inv in I0. cbn in I0. specialize (NZ n eq_refl). replace (0 <=? Z.of_N n)%Z with true by lia.
    cbn [guard bind]. destruct (Z.of_N n) as [|p|p] eqn:En; [lia | | lia].
    unfold bd_set. cbn [bd_enc bd_size]. fold k. rewrite G. cbn [bind].
    replace (bd_size_ok (Some (Z.to_N (Z.pos p))) b) with true.
    + cbn [guard bind]. rewrite <- En, N2Z.id. reflexivity.
    + rewrite <- En, N2Z.id. unfold bd_size_ok. destruct I0 as [->| <-]; [reflexivity | lia].
  - cbn [guard bind]. unfold bd_set. cbn [bd_enc bd_size]. fold k. rewrite G. reflexivity.
Qed.

(** ** Public keys *)
Lemma hash_from_json_ok s h : hash_from_json (JStr s) = Ok h <-> unhex s = Ok h /\ (h = [] \/ length h = 32%nat).
Proof.
  unfold hash_from_json. destruct s as [|c s]; rewrite hash_new_ok; reflexivity.
Qed.
Lemma hash_from_json_hex h : hash32 h -> hash_from_json (JStr (hex h)) = Ok h.
Proof. intros [L W]. apply hash_from_json_ok. rewrite unhex_hex by exact W. auto. Qed.
Lemma splitn_nosep sep s : forall n acc, Forall (fun c => c <> sep) s -> splitn sep n acc s = [rev acc ++ s].
Proof.
  induction s as [|c s IH]; intros n acc F; cbn [splitn]; [rewrite app_nil_r; reflexivity|].
  inversion F as [|? ? Hc F']; subst. destruct n; [reflexivity|].
  replace (c =? sep) with false by lia. rewrite IH by exact F'. cbn [rev]. rewrite <- app_assoc. reflexivity.
Qed.
Lemma splitn_sep sep a b : forall n acc, Forall (fun c => c <> sep) a ->
  splitn sep (S n) acc (a ++ sep :: b) = (rev acc ++ a) :: splitn sep n [] b.
Proof.
  induction a as [|c a IH]; intros n acc F; cbn [app splitn].
  - rewrite N.eqb_refl, app_nil_r. reflexivity.
  - inversion F as [|? ? Hc F']; subst. replace (c =? sep) with false by lia.
    rewrite IH by exact F'. cbn [rev]. rewrite <- app_assoc. reflexivity.
Qed.
Lemma find_sep sep (s : pystr) : Forall (fun c => c <> sep) s \/
  exists a b, s = a ++ sep :: b /\ Forall (fun c => c <> sep) a.
Proof.
  induction s as [|c s IH]; [left; constructor|].
  destruct (N.eq_dec c sep) as [-> |Hc].
  - right. exists [], s. split; [reflexivity | constructor].
  - destruct IH as [F|(a & b & -> & F)]; [left; constructor; assumption|].
    right. exists (c :: a), b. split; [reflexivity | constructor; assumption].
Qed.
Lemma splitn_two sep s a b : splitn sep 2 [] s = [a; b] <->
  s = a ++ sep :: b /\ Forall (fun c => c <> sep) a /\ Forall (fun c => c <> sep) b.
Proof.
  split.
  - intros E. destruct (find_sep sep s) as [F|(x & y & -> & F)].
    + rewrite splitn_nosep in E by exact F. discriminate.
    + rewrite splitn_sep in E by exact F. cbn [rev app] in E.
      destruct (find_sep sep y) as [G|(p & q & -> & G)].
      * rewrite splitn_nosep in E by exact G. cbn in E. injection E as <- <-. auto.
      * rewrite splitn_sep in E by exact G. exfalso. cbn [rev app] in E.
        destruct q; cbn in E; discriminate.
  - intros (-> & Fa & Fb). rewrite splitn_sep by exact Fa. rewrite splitn_nosep by exact Fb. reflexivity.
Qed.

Lemma lowhex_not58 s : Forall lowhex s -> Forall (fun c => c <> 58) s.
Proof. apply Forall_impl. unfold lowhex. intros c Hc. lia. Qed.
Lemma pkspec_no58 p : Forall (fun c => c <> 58) (pkspec_str p).
Proof. destruct p; cbn; repeat constructor; lia. Qed.

Lemma pk_round_trip p : hash32 (pk_hash p) -> pk_from_json (JStr (pk_str p)) = Ok p.
Proof.
  intros Hh. unfold pk_from_json, pk_str.
  replace (jtruthy (JStr (pkspec_str (pk_spec p) ++ 58 :: hash_str (pk_hash p)))) with true
    by (destruct (pk_spec p); reflexivity).
  rewrite hash_str_full by exact Hh.
  assert (E : splitn 58 2 [] (pkspec_str (pk_spec p) ++ 58 :: hex (pk_hash p)) = [pkspec_str (pk_spec p); hex (pk_hash p)]).
  { apply splitn_two. repeat split; [apply pkspec_no58 | apply lowhex_not58, hex_low, Hh]. }
  rewrite E. replace (pkspec_from_str (pkspec_str (pk_spec p))) with (@Ok pkspec (pk_spec p))
    by (destruct (pk_spec p); reflexivity).
  cbn [bind]. rewrite hash_from_json_hex by exact Hh. destruct p; reflexivity.
Qed.

Lemma pkspec_from_str_ok a p : pkspec_from_str a = Ok p <-> a = pkspec_str p.
Proof.
  unfold pkspec_from_str. destruct a as [|x a].
  - split; [intros E; injection E as <-; reflexivity | destruct p; [reflexivity | discriminate]].
  - destruct (listN_eqb (x :: a) (s2b "ed25519")) eqn:E.
    + apply listN_eqb_eq in E. rewrite E. split; [intros F; injection F as <-; reflexivity|].
      destruct p; [discriminate | reflexivity].
    + split; [discriminate|]. destruct p; [discriminate|]. intros F. apply listN_eqb_neq in E. contradiction.
Qed.

Lemma pk_accepts s p : pk_from_json (JStr s) = Ok p <->
  s = [] /\ p = mkpk PKNil [] \/
  exists t, s = pkspec_str (pk_spec p) ++ 58 :: t /\ Forall (fun c => c <> 58) t /\
            unhex t = Ok (pk_hash p) /\ (pk_hash p = [] \/ length (pk_hash p) = 32%nat).
Proof.
  unfold pk_from_json. destruct s as [|c s].
  - cbn. split.
    + intros E; injection E as <-. left; auto.
    + intros [[_ ->]|(t & E & _)]; [reflexivity|]. destruct (pk_spec p); discriminate.
  - change (jtruthy (JStr (c :: s))) with true. cbn iota. split.
    + intros E. right. destruct (splitn 58 2 [] (c :: s)) as [|a [|b [|]]] eqn:ES; try discriminate.
      apply splitn_two in ES as (ES & Fa & Fb).
      apply bind_ok in E as (sp & Esp & E). apply bind_ok in E as (h & Eh & E). injection E as <-.
      apply pkspec_from_str_ok in Esp. subst a. exists b. cbn [pk_spec pk_hash]. repeat split; auto.
      * apply hash_from_json_ok in Eh as [Eh _]; exact Eh.
      * apply hash_from_json_ok in Eh as [_ Eh]; exact Eh.
    + intros [[E _]|(t & E & Ft & Et & Lt)]; [discriminate|].
      assert (ES : splitn 58 2 [] (c :: s) = [pkspec_str (pk_spec p); t])
        by (apply splitn_two; repeat split; auto using pkspec_no58).
      rewrite ES.
      assert (Esp : pkspec_from_str (pkspec_str (pk_spec p)) = Ok (pk_spec p)) by (apply pkspec_from_str_ok; reflexivity).
      rewrite Esp. cbn [bind].
      assert (Eh : hash_from_json (JStr t) = Ok (pk_hash p)) by (apply hash_from_json_ok; auto).
      rewrite Eh. cbn [bind]. destruct p; reflexivity.
Qed.

Lemma pad16_len p : length (pad16 (pkspec_str p)) = 16%nat.
Proof. destruct p; reflexivity. Qed.
Lemma pad16_inj p q : pad16 (pkspec_str p) = pad16 (pkspec_str q) -> p = q.
Proof. destruct p, q; intros E; try reflexivity; discriminate. Qed.
Lemma pk_sia_uniq : uniq (fun _ : pubkey => True) pk_sia.
Proof.
  intros p q x y r s _ _ Ep Eq E. unfold pk_sia in *.
  apply rapp_ok in Ep as (x1 & x2 & E1 & E2 & ->). apply rapp_ok in Eq as (y1 & y2 & E3 & E4 & ->).
  apply ok_inj in E1. apply ok_inj in E3. subst x1 y1. rewrite <- !app_assoc in E.
  apply app_inj_len in E as [E5 E6]; [|rewrite !pad16_len; reflexivity]. apply pad16_inj in E5.
  destruct (sia_slice_uniq _ _ _ _ _ _ I I E2 E4 E6) as [E7 ->]. destruct p, q; cbn in *; subst; auto.
Qed.
Lemma pk_riv_uniq : uniq (fun p => hash32 (pk_hash p)) pk_riv.
Proof.
  intros p q x y r s [Lp _] [Lq _] Ep Eq E. unfold pk_riv in *.
  apply rapp_ok in Ep as (x1 & x2 & E1 & E2 & ->). apply rapp_ok in Eq as (y1 & y2 & E3 & E4 & ->).
  apply ok_inj in E2. apply ok_inj in E4. subst x2 y2. rewrite <- !app_assoc in E.
  destruct (riv_int_uniq _ _ _ _ _ _ _ I I E1 E3 E) as [E5 E6].
  apply app_inj_len in E6 as [E6 ->]; [|lia]. split; [|reflexivity].
  destruct p as [a ?], q as [b ?]; cbn in *; subst. destruct a, b; cbn in *; try discriminate; reflexivity.
Qed.

Lemma pk_uh_input_inj p q x : pk_uh_input p = Ok x -> pk_uh_input q = Ok x -> p = q.
Proof.
  unfold pk_uh_input. intros Ep Eq. apply bind_ok in Ep as (a & Ea & Ep). apply bind_ok in Eq as (b & Eb & Eq).
  destruct (sia_slice_uniq _ _ _ _ [] [] I I Ep Eq eq_refl) as [-> _].
  destruct (pk_sia_uniq _ _ _ _ [] [] I I Ea Eb eq_refl) as [-> _]. reflexivity.
Qed.
Lemma sia_slice_ok' b : lenN b < 2 ^ 64 -> sia_slice b = Ok (le 8 (lenN b) ++ b).
Proof.
  intros L. rewrite sia_slice_spec, sia_int_spec. unfold lenN in *. change (2 ^ 64) with 18446744073709551616 in L.
  change (2 ^ 64)%Z with 18446744073709551616%Z.
  replace ((0 <=? Z.of_nat (length b)) && (Z.of_nat (length b) <? 18446744073709551616))%Z with true by lia.
  cbn [rapp bind]. replace (Z.to_N (Z.of_nat (length b))) with (N.of_nat (length b)) by lia. reflexivity.
Qed.
Lemma sia_slice_total b : lenN b < 2 ^ 64 -> exists x, sia_slice b = Ok x.
Proof. intros L. rewrite sia_slice_ok' by exact L. eauto. Qed.
Lemma pk_uh_total p : pk_hash p = [] \/ length (pk_hash p) = 32%nat -> exists x, pk_uh_input p = Ok x.
Proof.
  intros L. unfold pk_uh_input, pk_sia. change (2 ^ 64) with 18446744073709551616.
  assert (L' : lenN (pk_hash p) <= 32) by (unfold lenN; destruct L as [-> |L]; [cbn; lia | lia]).
  rewrite sia_slice_ok' by (change (2 ^ 64) with 18446744073709551616; lia). cbn [rapp bind]. apply sia_slice_total.
  unfold lenN in *. rewrite app_length, pad16_len, app_length, le_length.
  change (2 ^ 64) with 18446744073709551616. lia.
Qed.
