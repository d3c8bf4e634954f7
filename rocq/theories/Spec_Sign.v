(** Vocabulary for the signing of transactions by a wallet. *)
From Verif Require Import Base Primitive Types Conditions Fulfillments ThreeBotTypes Txn TxnSign Spec_Types Spec_Fulfil Spec_Txn.

(** A fulfilment with one more signature. *)
Definition add_sig (f : ff) (k : pubkey) (s : bytes) : ff :=
  match f with
  | FSingle _ _ => FSingle k (Some s)
  | FSwap _ _ se => FSwap k (Some s) se
  | FMulti ps => FMulti (ps ++ [(k, s)])
  end.

Section Wallet.
Variable H : bytes -> bytes.
Variable sign : pubkey -> bytes -> bytes.
Variable primary : pystr.
Variable ks : keys.

(** The key of the wallet for an address, if any. *)
Definition wallet_key (u : uh) : option pubkey :=
  match uh_str H u with Ok a => key_pair_get primary ks a | Err _ => None end.

(** [signed_by t ex us f f']: [f'] is [f] with a signature added for every address in [us] the wallet has a key of, in order,
    each over the hash of the signature data of [t] (with the objects [ex] the signer's key demands), and nothing else. *)
Inductive signed_by (t : txn) (ex : pubkey -> list extra) : list uh -> ff -> ff -> Prop :=
| sb_done f : signed_by t ex [] f f
| sb_foreign u us f f' : wallet_key u = None -> signed_by t ex us f f' -> signed_by t ex (u :: us) f f'
| sb_own u us f f' k d : wallet_key u = Some k -> sig_input H t (ex k) = Ok d ->
    signed_by t ex us (add_sig f k (sign k (H d))) f' -> signed_by t ex (u :: us) f f'.

(** One signature of the transaction itself: the marker word, the key it has to come from, the signature. *)
Definition own_slots (t : txn) : list (bytes * option pubkey * bsig) :=
  match t with
  | T144 b => [(SENDER, b_pk b, b_sig b)]
  | T145 u => [(SENDER, u_parent u, u_sig u)]
  | T210 r => [(REGISTRATION, r_pk r, r_sig r)]
  | T146 n => [(SENDER, n_spk n, n_ssig n); (RECEIVER, n_rpk n, n_rsig n)]
  | _ => []
  end.
(** The slot after signing: filled if it was empty, its key is known and the wallet has it; otherwise as before. *)
Inductive own_signed (t : txn) : bytes * option pubkey * bsig -> bytes * option pubkey * bsig -> Prop :=
| os_signed w p u k d : pk_unlockhash H p = Ok u -> wallet_key u = Some k -> sig_input H t [XBytes w] = Ok d ->
    own_signed t (w, Some p, None) (w, Some p, Some (true, sign k (H d)))
| os_foreign w p u : pk_unlockhash H p = Ok u -> wallet_key u = None -> own_signed t (w, Some p, None) (w, Some p, None)
| os_unknown w s : own_signed t (w, None, s) (w, None, s)
| os_done w p s : own_signed t (w, p, Some s) (w, p, Some s).

End Wallet.

(** The fulfilments of the coin inputs, of the block stake inputs and of a mint transaction, each with the condition it is
    for (None: not known), the objects hashed for it. *)
Definition slot (t : txn) (c : cb) : option (ff * option cond * (pubkey -> list extra)) :=
  match c with
  | CbCoin i => match coin_inputs t with
                | Ok l => option_map (fun x => (i_ff x, option_map o_cond (i_out x), fun k => XInt (Z.of_nat i) :: ff_extras (i_ff x) k)) (nth_error l i)
                | Err _ => None
                end
  | CbStake i => option_map (fun x => (i_ff x, Some (match i_out x with Some o => o_cond o | None => CNil end),
                                       fun k => XInt (Z.of_nat i) :: ff_extras (i_ff x) k)) (nth_error (blockstake_inputs t) i)
  | CbMint => match t with TMint m => option_map (fun f => (f, m_parent m, ff_extras f)) (m_ff m) | _ => None end
  | CbSelf => None
  end.
(** Whose signatures a slot still needs. *)
Definition wanted (H : bytes -> bytes) (f : ff) (c : option cond) : res (list uh) :=
  match c with None => Ok [] | Some c => ff_asked H f c end.

(** The transaction a wallet signs: known outputs attached to the coin inputs, and for a mint transaction the condition in
    force with a fulfilment for it. *)
Definition prepared (known : bytes -> option output) (mc : res cond) (t : txn) : txn := fst (mint_prepare mc (set_cin t (attach known))).
(** Every request can be answered: each signer's data can be computed, and the wallet's keys asked of one multi-signature
    fulfilment are different and not among the signers already. *)
Definition owned (H : bytes -> bytes) (primary : pystr) (ks : keys) (us : list uh) : list pubkey :=
  flat_map (fun u => match wallet_key H primary ks u with Some k => [k] | None => [] end) us.
Definition no_clash (H : bytes -> bytes) (primary : pystr) (ks : keys) (t : txn) : Prop :=
  forall c ps p ex us, slot t c = Some (FMulti ps, p, ex) -> wanted H (FMulti ps) p = Ok us ->
  NoDup (map pk_str (map fst ps ++ owned H primary ks us)).
(** Keys are filed under their address, and the primary address is known. *)
Definition wallet_ok (H : bytes -> bytes) (primary : pystr) (ks : keys) : Prop :=
  Forall (fun a => pk_address H (snd a) = Ok (fst a)) ks.
Definition own_keys_ok (H : bytes -> bytes) (t : txn) : Prop :=
  Forall (fun s => is_ok (pk_unlockhash H (opk (snd (fst s)))) = true) (own_slots t).
(** A history of signing: answers to any requests, with any keys and values, accepted or not. *)
Fixpoint attempts (H : bytes -> bytes) (t : txn) (l : list (treq * pubkey * bval)) : txn :=
  match l with
  | [] => t
  | (q, k, v) :: l => attempts H (fst (t_fulfil H t q k v)) l
  end.
