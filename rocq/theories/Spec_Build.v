(** Building a transaction by hand (C85): what each assignment and each call asks for, in terms of the value given. *)
From Verif Require Import Base Primitive Types Conditions Fulfillments Currency ThreeBotTypes Txn TxnBuild Spec_Currency Spec_Amounts Spec_ERC20 Spec_Texts Spec_ThreeBot.

(** ** Values *)
(** [n] bytes, or none at all *)
Definition of_size (n : nat) (b : bytes) : Prop := b = [] \/ length b = n.
(** given as None, as bytes, as an object holding them, or as a text *)
Definition bytes_given (text : pystr -> bytes -> Prop) (n : nat) (v : bval) (b : bytes) : Prop :=
  match v with
  | BVNone => b = []
  | BVBytes x => b = x /\ of_size n b
  | BVData d => b = bd_val d /\ of_size n b
  | BVStr s => text s b /\ of_size n b
  | BVOther => False
  end.
Definition hash_given : bval -> bytes -> Prop := bytes_given pairs 32.
Definition ethereum_text (s : pystr) (b : bytes) : Prop := exists t, after_prefix s t /\ pairs t b.
(** an amount: none, another one, a whole number of TFT, a text, or a decimal number *)
Definition amount_given (v : cinput) (n : N) : Prop :=
  match v with
  | CINone => n = 0
  | CICur c => n = scaled9 (cvalue c)
  | CIInt z => (0 <= z)%Z /\ n = Z.to_N z * 1000000000
  | CIStr s => amount_text s n
  | CIDec (DFin d) => dneg d = false /\ (-9 <= dexp d)%Z /\ n = dcoef d * 10 ^ Z.to_N (dexp d + 9)
  | _ => False
  end.
Definition stakes_given (v : stakearg) (n : N) : Prop :=
  match v with
  | TGStake m => n = m
  | TGVal BINone => n = 0
  | TGVal (BIInt z) => z = Z.of_N n
  | TGVal (BIStr s) => int_text s (Z.of_N n)
  | TGVal BIOther => False
  end.
(** None, or a value *)
Definition maybe {A B} (none : A) (given : A -> B -> Prop) (v : A) (o : option B) : Prop :=
  (v = none /\ o = None) \/ (v <> none /\ exists b, o = Some b /\ given v b).
Definition fee_given : cinput -> option N -> Prop := maybe CINone amount_given.
Definition signature_given : bval -> bsig -> Prop := maybe BVNone (fun v s => fst s = true /\ bytes_given pairs 64 v (snd s)).
Definition condition_given (v : condarg) (c : cond) : Prop := v = CGCond c \/ (v = CGNone /\ c = CNil).
Definition fulfilment_given (v : ffarg) (f : ff) : Prop := v = FGFf f \/ (v = FGNone /\ f = FSingle (mkpk PKNil []) None).
Definition key_given (v : keyarg) (o : option pubkey) : Prop := (v = KGNone /\ o = None) \/ exists k, v = KGKey k /\ o = Some k.
Definition bot_given (v : botarg) (z : Z) : Prop := (v = BGNone /\ z = 0%Z) \/ (v = BGInt z /\ (1 <= z)%Z).
Definition months_given (least : Z) (v : monarg) (z : Z) : Prop := v = MGInt z /\ (least <= z <= 24)%Z.
(** at most 83 bytes; of a text its UTF-8 encoding *)
Definition attached (v : bval) (b : bytes) : Prop :=
  (v = BVNone /\ b = []) \/
  ((length b <= 83)%nat /\ (v = BVBytes b \/ (exists d, v = BVData d /\ b = bd_val d) \/ (exists s, v = BVStr s /\ utf8 s = Ok b))).
Definition name_text (s : pystr) : Prop := (length s <= 63)%nat /\ maybe_newline bot_name s.
Definition name_given (v : namearg) (s : pystr) : Prop := (v = NGText None /\ s = []) \/ (v = NGText (Some s) /\ name_text s).
(** a host name, an address [ipaddress] understands, a number, or an object holding a host name *)
Definition address_given (parse : pystr -> res bytes) (v : addrarg) (a : naddr) : Prop :=
  (v = AGVal (NVText None) /\ a = mkna 0 []) \/
  (exists s, v = AGVal (NVText (Some s)) /\
    ((maybe_newline host_name s /\ (length s <= 63)%nat /\ a = mkna 0 s) \/ (~ maybe_newline host_name s /\ exists p, parse s = Ok p /\ a = na_packed p))) \/
  (exists z p, v = AGVal (NVInt z) /\ ip_of_int z = Ok p /\ a = na_packed p) \/
  (v = AGVal (NVAddr a) /\ na_type a = 0).
Definition output_given (v : cinput) (c : condarg) (id : bval) (o : output) : Prop :=
  amount_given v (o_value o) /\ condition_given c (o_cond o) /\ hash_given id (o_id o).
Definition stake_output_given (v : stakearg) (c : condarg) (id : bval) (o : output) : Prop :=
  stakes_given v (o_value o) /\ condition_given c (o_cond o) /\ hash_given id (o_id o).
Definition parent_given (v : outarg) (o : option output) : Prop := (v = OGNone /\ o = None) \/ exists x, v = OGOut x /\ o = Some x.
Definition stake_parent_given (v : outarg) (o : option output) : Prop := (v = OGNone /\ o = Some (mkout 0 CNil [])) \/ exists x, v = OGOut x /\ o = Some x.
Definition input_given (p : bval) (f : ffarg) (x : outarg) (i : input) : Prop := hash_given p (i_parent i) /\ fulfilment_given f (i_ff i) /\ parent_given x (i_out i).
Definition stake_input_given (p : bval) (f : ffarg) (x : outarg) (i : input) : Prop := hash_given p (i_parent i) /\ fulfilment_given f (i_ff i) /\ stake_parent_given x (i_out i).
(** the element of an assigned list becomes the same input or output, except that an unknown parent becomes an output of nothing to anyone *)
Definition copied_input (v : inarg) (i : input) : Prop :=
  exists x, v = IGIn x /\ i_parent i = i_parent x /\ i_ff i = i_ff x /\ (i_out i = i_out x \/ (i_out x = None /\ i_out i = Some (mkout 0 CNil []))) /\ i_out i <> None.
Definition copied_output (v : outarg) (o : output) : Prop := v = OGOut o.
Definition listed {A B} (R : A -> B -> Prop) (v : seqarg A) (l : list B) : Prop := (v = SGNone /\ l = []) \/ exists vs, v = SGList vs /\ Forall2 R vs l.
Definition outputs_listed (v : outsarg) (l : list output) : Prop := (v = OLNone /\ l = []) \/ v = OLList (map OGOut l).
(** at most one output *)
Definition refund_given (v : outsarg) (o : option output) : Prop :=
  match o with
  | None => v = OLNone \/ v = OLList [] \/ v = OLList [OGNone]
  | Some x => v = OLOne x \/ v = OLList [OGOut x]
  end.
(** ** What is done *)
Section Done.
Variable H : bytes -> bytes.
Variable parse : pystr -> res bytes.
Definition uh_given (v : uharg) (u : uh) : Prop := v = UGUh u \/ (v = UGVal BVNone /\ u = mkuh 0 []) \/ exists s, v = UGVal (BVStr s) /\ address_text H s u.
(** names of properties that exist on one kind of transaction only are ordinary attributes on the others: nothing happens *)
Definition ignored (t : txn) (o : op) : Prop :=
  match o with
  | MintCondition _ => version t <> 128%Z
  | ParentMintCondition _ | MintFulfilment _ => version t <> 128%Z /\ version t <> 129%Z
  | Address _ | Value _ => version t <> 208%Z /\ version t <> 209%Z
  | TransactionFee _ => In (version t) [1; 128; 129]%Z
  | RegistrationFee _ => version t <> 210%Z
  | BlockId _ | TransactionId _ => version t <> 209%Z
  | PublicKey _ => version t <> 144%Z /\ version t <> 210%Z
  | Signature _ => ~ In (version t) [144; 145; 210]%Z
  | Addresses _ => version t <> 144%Z
  | Names _ => version t <> 144%Z /\ version t <> 146%Z
  | Months _ => version t <> 144%Z /\ version t <> 145%Z
  | BotId _ | AddressesToAdd _ | AddressesToRemove _ | NamesToAdd _ | NamesToRemove _ | ParentPublicKey _ => version t <> 145%Z
  | SenderBotId _ | ReceiverBotId _ | SenderSignature _ | ReceiverSignature _ | SenderKey _ | ReceiverKey _ => version t <> 146%Z
  | _ => False
  end.
(** [x] came to the end of [l] *)
Definition one_more {A} (l l' : list A) (x : A) : Prop := l' = l ++ [x].
(** no more than [n] of them *)
Definition room {A} (n : nat) (l : list A) : Prop := (length l <= n)%nat.

Definition done_std (t : tx_std) (o : op) (t' : tx_std) : Prop :=
  match t, t' with
  | mkstd g ci co bi bo fs d, mkstd g' ci' co' bi' bo' fs' d' =>
      let cin := g' = g /\ co' = co /\ bi' = bi /\ bo' = bo /\ fs' = fs /\ d' = d in
      let cout := g' = g /\ ci' = ci /\ bi' = bi /\ bo' = bo /\ fs' = fs /\ d' = d in
      let bin := g' = g /\ ci' = ci /\ co' = co /\ bo' = bo /\ fs' = fs /\ d' = d in
      let bout := g' = g /\ ci' = ci /\ co' = co /\ bi' = bi /\ fs' = fs /\ d' = d in
      match o with
      | CoinInputs v => listed copied_input v ci' /\ cin
      | CoinOutputs v => outputs_listed v co' /\ cout
      | StakeInputs v => listed copied_input v bi' /\ bin
      | StakeOutputs v => listed copied_output v bo' /\ bout
      | CoinInputAdd p f x => (exists i, input_given p f x i /\ one_more ci ci' i) /\ cin
      | CoinOutputAdd v c i => (exists x, output_given v c i x /\ one_more co co' x) /\ cout
      | StakeInputAdd p f x => (exists i, stake_input_given p f x i /\ one_more bi bi' i) /\ bin
      | StakeOutputAdd v c i => (exists x, stake_output_given v c i x /\ one_more bo bo' x) /\ bout
      | MinerFeeAdd v => (exists n, amount_given v n /\ one_more fs fs' n) /\ g' = g /\ ci' = ci /\ co' = co /\ bi' = bi /\ bo' = bo /\ d' = d
      | Data v => attached v d' /\ g' = g /\ ci' = ci /\ co' = co /\ bi' = bi /\ bo' = bo /\ fs' = fs
      | _ => False
      end
  end.
Definition done_mint (t : tx_mint) (o : op) (t' : tx_mint) : Prop :=
  match t, t' with
  | mkmint f n fs d x p, mkmint f' n' fs' d' x' p' =>
      let new := f' = f /\ fs' = fs /\ d' = d /\ x' = x /\ p' = p in
      match o with
      | MintCondition v => (exists c c', n = MCond c /\ n' = MCond c' /\ condition_given v c') /\ new
      | CoinOutputs v => (exists l l', n = MCoins l /\ n' = MCoins l' /\ outputs_listed v l') /\ new
      | CoinOutputAdd v c i => (exists l l' x, n = MCoins l /\ n' = MCoins l' /\ output_given v c i x /\ one_more l l' x) /\ new
      | ParentMintCondition v => maybe CGNone condition_given v p' /\ f' = f /\ n' = n /\ fs' = fs /\ d' = d /\ x' = x
      | MintFulfilment v => maybe FGNone fulfilment_given v f' /\ n' = n /\ fs' = fs /\ d' = d /\ x' = x /\ p' = p
      | MinerFeeAdd v => (exists a, amount_given v a /\ one_more fs fs' a) /\ f' = f /\ n' = n /\ d' = d /\ x' = x /\ p' = p
      | Data v => attached v d' /\ f' = f /\ n' = n /\ fs' = fs /\ x' = x /\ p' = p
      | _ => False
      end
  end.
Definition done_conv (t : tx_conv) (o : op) (t' : tx_conv) : Prop :=
  match t, t' with
  | mkconv a n f ci r, mkconv a' n' f' ci' r' =>
      match o with
      | Address v => (exists w, v = UGVal w /\ bytes_given ethereum_text 20 w a') /\ n' = n /\ f' = f /\ ci' = ci /\ r' = r
      | Value v => amount_given v n' /\ a' = a /\ f' = f /\ ci' = ci /\ r' = r
      | TransactionFee v => fee_given v f' /\ a' = a /\ n' = n /\ ci' = ci /\ r' = r
      | CoinInputs v => listed copied_input v ci' /\ a' = a /\ n' = n /\ f' = f /\ r' = r
      | CoinInputAdd p g x => (exists i, input_given p g x i /\ one_more ci ci' i) /\ a' = a /\ n' = n /\ f' = f /\ r' = r
      | CoinOutputs v => refund_given v r' /\ a' = a /\ n' = n /\ f' = f /\ ci' = ci
      | RefundSet v c i => (exists x, output_given v c i x /\ r' = Some x) /\ a' = a /\ n' = n /\ f' = f /\ ci' = ci
      | _ => False
      end
  end.
Definition done_gen (t : tx_gen) (o : op) (t' : tx_gen) : Prop :=
  match t, t' with
  | mkgen a n f b x, mkgen a' n' f' b' x' =>
      match o with
      | Address v => uh_given v a' /\ n' = n /\ f' = f /\ b' = b /\ x' = x
      | Value v => amount_given v n' /\ a' = a /\ f' = f /\ b' = b /\ x' = x
      | TransactionFee v => fee_given v f' /\ a' = a /\ n' = n /\ b' = b /\ x' = x
      | BlockId v => bytes_given ethereum_text 32 v b' /\ a' = a /\ n' = n /\ f' = f /\ x' = x
      | TransactionId v => bytes_given ethereum_text 32 v x' /\ a' = a /\ n' = n /\ f' = f /\ b' = b
      | _ => False
      end
  end.
Definition done_reg (t : tx_reg) (o : op) (t' : tx_reg) : Prop :=
  match t, t' with
  | mkreg k s f ci r, mkreg k' s' f' ci' r' =>
      match o with
      | PublicKey v => key_given v k' /\ s' = s /\ f' = f /\ ci' = ci /\ r' = r
      | Signature v => signature_given v s' /\ k' = k /\ f' = f /\ ci' = ci /\ r' = r
      | TransactionFee v => fee_given v f' /\ k' = k /\ s' = s /\ ci' = ci /\ r' = r
      | RegistrationFee v => (v = CINone \/ amount_given v (10 * 1000000000)) /\ k' = k /\ s' = s /\ f' = f /\ ci' = ci /\ r' = r
      | CoinInputs v => (exists l, listed copied_input v l /\ ci' = Some l) /\ k' = k /\ s' = s /\ f' = f /\ r' = r
      | CoinInputAdd p g x => (exists l i, ci = Some l /\ input_given p g x i /\ ci' = Some (l ++ [i])) /\ k' = k /\ s' = s /\ f' = f /\ r' = r
      | CoinOutputs v => refund_given v r' /\ k' = k /\ s' = s /\ f' = f /\ ci' = ci
      | RefundSet v c i => (exists x, output_given v c i x /\ r' = Some x) /\ k' = k /\ s' = s /\ f' = f /\ ci' = ci
      | _ => False
      end
  end.
Definition done_bot (t : tx_bot) (o : op) (t' : tx_bot) : Prop :=
  match t, t' with
  | mkbot la ln m f ci r k s, mkbot la' ln' m' f' ci' r' k' s' =>
      let addrs := ln' = ln /\ m' = m /\ f' = f /\ ci' = ci /\ r' = r /\ k' = k /\ s' = s in
      let names := la' = la /\ m' = m /\ f' = f /\ ci' = ci /\ r' = r /\ k' = k /\ s' = s in
      let inputs := la' = la /\ ln' = ln /\ m' = m /\ f' = f /\ r' = r /\ k' = k /\ s' = s in
      let refund := la' = la /\ ln' = ln /\ m' = m /\ f' = f /\ ci' = ci /\ k' = k /\ s' = s in
      match o with
      | Addresses v => listed (address_given parse) v la' /\ room 10 la' /\ addrs
      | AddressAdd v => (exists a, address_given parse v a /\ one_more la la' a) /\ length la <> 10%nat /\ addrs
      | Names v => listed name_given v ln' /\ room 5 ln' /\ names
      | NameAdd v => (exists n, name_given v n /\ one_more ln ln' n) /\ length ln <> 5%nat /\ names
      | Months v => months_given 1 v m' /\ la' = la /\ ln' = ln /\ f' = f /\ ci' = ci /\ r' = r /\ k' = k /\ s' = s
      | TransactionFee v => fee_given v f' /\ la' = la /\ ln' = ln /\ m' = m /\ ci' = ci /\ r' = r /\ k' = k /\ s' = s
      | CoinInputs v => listed copied_input v ci' /\ inputs
      | CoinInputAdd p g x => (exists i, input_given p g x i /\ one_more ci ci' i) /\ inputs
      | CoinOutputs v => refund_given v r' /\ refund
      | RefundSet v c i => (exists x, output_given v c i x /\ r' = Some x) /\ refund
      | PublicKey v => key_given v k' /\ la' = la /\ ln' = ln /\ m' = m /\ f' = f /\ ci' = ci /\ r' = r /\ s' = s
      | Signature v => signature_given v s' /\ la' = la /\ ln' = ln /\ m' = m /\ f' = f /\ ci' = ci /\ r' = r /\ k' = k
      | _ => False
      end
  end.
Definition done_upd (t : tx_upd) (o : op) (t' : tx_upd) : Prop :=
  match t, t' with
  | mkupd b aa ad na nd m f ci r s k, mkupd b' aa' ad' na' nd' m' f' ci' r' s' k' =>
      let rest := b' = b /\ m' = m /\ f' = f /\ ci' = ci /\ r' = r /\ s' = s /\ k' = k in
      let lists := aa' = aa /\ ad' = ad /\ na' = na /\ nd' = nd in
      match o with
      | BotId v => bot_given v b' /\ lists /\ m' = m /\ f' = f /\ ci' = ci /\ r' = r /\ s' = s /\ k' = k
      | AddressesToAdd v => listed (address_given parse) v aa' /\ room 10 aa' /\ ad' = ad /\ na' = na /\ nd' = nd /\ rest
      | AddressAdd v => (exists a, address_given parse v a /\ one_more aa aa' a) /\ length aa <> 10%nat /\ ad' = ad /\ na' = na /\ nd' = nd /\ rest
      | AddressesToRemove v => listed (address_given parse) v ad' /\ room 10 ad' /\ aa' = aa /\ na' = na /\ nd' = nd /\ rest
      | AddressRemove v => (exists a, address_given parse v a /\ one_more ad ad' a) /\ length ad <> 10%nat /\ aa' = aa /\ na' = na /\ nd' = nd /\ rest
      | NamesToAdd v => listed name_given v na' /\ room 5 na' /\ aa' = aa /\ ad' = ad /\ nd' = nd /\ rest
      | NameAdd v => (exists n, name_given v n /\ one_more na na' n) /\ length na <> 5%nat /\ aa' = aa /\ ad' = ad /\ nd' = nd /\ rest
      | NamesToRemove v => listed name_given v nd' /\ room 5 nd' /\ aa' = aa /\ ad' = ad /\ na' = na /\ rest
      | NameRemove v => (exists n, name_given v n /\ one_more nd nd' n) /\ length nd <> 5%nat /\ aa' = aa /\ ad' = ad /\ na' = na /\ rest
      | Months v => months_given 0 v m' /\ lists /\ b' = b /\ f' = f /\ ci' = ci /\ r' = r /\ s' = s /\ k' = k
      | TransactionFee v => fee_given v f' /\ lists /\ b' = b /\ m' = m /\ ci' = ci /\ r' = r /\ s' = s /\ k' = k
      | CoinInputs v => listed copied_input v ci' /\ lists /\ b' = b /\ m' = m /\ f' = f /\ r' = r /\ s' = s /\ k' = k
      | CoinInputAdd p g x => (exists i, input_given p g x i /\ one_more ci ci' i) /\ lists /\ b' = b /\ m' = m /\ f' = f /\ r' = r /\ s' = s /\ k' = k
      | CoinOutputs v => refund_given v r' /\ lists /\ b' = b /\ m' = m /\ f' = f /\ ci' = ci /\ s' = s /\ k' = k
      | RefundSet v c i => (exists x, output_given v c i x /\ r' = Some x) /\ lists /\ b' = b /\ m' = m /\ f' = f /\ ci' = ci /\ s' = s /\ k' = k
      | Signature v => signature_given v s' /\ lists /\ b' = b /\ m' = m /\ f' = f /\ ci' = ci /\ r' = r /\ k' = k
      | ParentPublicKey v => key_given v k' /\ lists /\ b' = b /\ m' = m /\ f' = f /\ ci' = ci /\ r' = r /\ s' = s
      | _ => False
      end
  end.
Definition done_name (t : tx_name) (o : op) (t' : tx_name) : Prop :=
  match t, t' with
  | mkname a b ln f ci r s q k x, mkname a' b' ln' f' ci' r' s' q' k' x' =>
      let keys := s' = s /\ q' = q /\ k' = k /\ x' = x in
      match o with
      | SenderBotId v => bot_given v a' /\ b' = b /\ ln' = ln /\ f' = f /\ ci' = ci /\ r' = r /\ keys
      | ReceiverBotId v => bot_given v b' /\ a' = a /\ ln' = ln /\ f' = f /\ ci' = ci /\ r' = r /\ keys
      (* the names are added to those there are; without any nothing is checked *)
      | Names v => (exists l, listed name_given v l /\ ln' = ln ++ l /\ (l = [] \/ (length ln <= 5 -> room 5 ln')%nat)) /\ a' = a /\ b' = b /\ f' = f /\ ci' = ci /\ r' = r /\ keys
      | NameAdd v => (exists n, name_given v n /\ one_more ln ln' n) /\ length ln <> 5%nat /\ a' = a /\ b' = b /\ f' = f /\ ci' = ci /\ r' = r /\ keys
      | TransactionFee v => fee_given v f' /\ a' = a /\ b' = b /\ ln' = ln /\ ci' = ci /\ r' = r /\ keys
      | CoinInputs v => (exists l, listed copied_input v l /\ ci' = Some l) /\ a' = a /\ b' = b /\ ln' = ln /\ f' = f /\ r' = r /\ keys
      | CoinInputAdd p g y => (exists l i, ci = Some l /\ input_given p g y i /\ ci' = Some (l ++ [i])) /\ a' = a /\ b' = b /\ ln' = ln /\ f' = f /\ r' = r /\ keys
      | CoinOutputs v => refund_given v r' /\ a' = a /\ b' = b /\ ln' = ln /\ f' = f /\ ci' = ci /\ keys
      | RefundSet v c i => (exists y, output_given v c i y /\ r' = Some y) /\ a' = a /\ b' = b /\ ln' = ln /\ f' = f /\ ci' = ci /\ keys
      | SenderSignature v => signature_given v s' /\ a' = a /\ b' = b /\ ln' = ln /\ f' = f /\ ci' = ci /\ r' = r /\ q' = q /\ k' = k /\ x' = x
      | ReceiverSignature v => signature_given v q' /\ a' = a /\ b' = b /\ ln' = ln /\ f' = f /\ ci' = ci /\ r' = r /\ s' = s /\ k' = k /\ x' = x
      | SenderKey v => key_given v k' /\ a' = a /\ b' = b /\ ln' = ln /\ f' = f /\ ci' = ci /\ r' = r /\ s' = s /\ q' = q /\ x' = x
      | ReceiverKey v => key_given v x' /\ a' = a /\ b' = b /\ ln' = ln /\ f' = f /\ ci' = ci /\ r' = r /\ s' = s /\ q' = q /\ k' = k
      | _ => False
      end
  end.
(** [done t o t']: what [o] asks for is possible on [t] and leads to [t'] *)
Definition done (t : txn) (o : op) (t' : txn) : Prop :=
  (ignored t o /\ t' = t) \/
  match t, t' with
  | T1 a, T1 b => done_std a o b
  | TMint a, TMint b => done_mint a o b
  | T208 a, T208 b => done_conv a o b
  | T209 a, T209 b => done_gen a o b
  | T210 a, T210 b => done_reg a o b
  | T144 a, T144 b => done_bot a o b
  | T145 a, T145 b => done_upd a o b
  | T146 a, T146 b => done_name a o b
  | _, _ => False
  end.
End Done.

(** ** What is refused *)
(** the assignments of lists *)
Definition list_assigned (o : op) : Prop :=
  match o with
  | CoinInputs _ | CoinOutputs _ | StakeInputs _ | StakeOutputs _ | Addresses _ | Names _
  | AddressesToAdd _ | AddressesToRemove _ | NamesToAdd _ | NamesToRemove _ => True
  | _ => False
  end.
(** the same list up to an element, or no list at all instead of something that is not a list *)
Definition cut_short {A} (v v' : seqarg A) : Prop :=
  (exists vs x rest, v = SGList (vs ++ x :: rest) /\ v' = SGList vs) \/ (v = SGOther /\ v' = SGNone).
Definition outputs_cut_short (v v' : outsarg) : Prop :=
  (exists vs x rest, v = OLList (vs ++ x :: rest) /\ v' = OLList vs) \/ ((v = OLOther \/ exists o, v = OLOne o) /\ v' = OLNone).
Definition shorter (o o' : op) : Prop :=
  match o, o' with
  | CoinInputs v, CoinInputs v' | StakeInputs v, StakeInputs v' => cut_short v v'
  | CoinOutputs v, CoinOutputs v' => outputs_cut_short v v'
  | StakeOutputs v, StakeOutputs v' => cut_short v v'
  | Addresses v, Addresses v' | AddressesToAdd v, AddressesToAdd v' | AddressesToRemove v, AddressesToRemove v' => cut_short v v'
  | Names v, Names v' | NamesToAdd v, NamesToAdd v' | NamesToRemove v, NamesToRemove v' => cut_short v v'
  | _, _ => False
  end.

(** ** What can be made *)
Section Made.
Variable parse : pystr -> res bytes.
Definition made_output (o : output) : Prop := of_size 32 (o_id o).
Definition made_input (i : input) : Prop := of_size 32 (i_parent i) /\ match i_out i with Some o => made_output o | None => True end.
Definition made_refund (o : option output) : Prop := match o with Some o => made_output o | None => True end.
Definition made_signature (s : bsig) : Prop := match s with Some (array, b) => array = true /\ of_size 64 b | None => True end.
Definition made_name (s : pystr) : Prop := s = [] \/ name_text s.
(** an address made of a text or a number *)
Definition made_address (a : naddr) : Prop := exists v, (forall b, v <> AGVal (NVAddr b)) /\ address_given parse v a.
Definition made_addresses (l : list naddr) : Prop := room 10 l /\ Forall made_address l.
Definition made_names (l : list pystr) : Prop := room 5 l /\ Forall made_name l.
Definition made_inputs (l : option (list input)) : Prop := match l with Some l => Forall made_input l | None => True end.
(** [made nonce t]: nothing in [t] breaks a limit; [nonce] is the one of a minting transaction *)
Definition made (nonce : bytes) (t : txn) : Prop :=
  match t with
  | T1 (mkstd g ci co bi bo _ d) =>
      g = false /\ Forall made_input ci /\ Forall made_output co /\ Forall (fun i => made_input i /\ i_out i <> None) bi /\ Forall made_output bo /\ (length d <= 83)%nat
  | TMint (mkmint _ n _ d x _) => match n with MCond _ => True | MCoins l => Forall made_output l end /\ (length d <= 83)%nat /\ x = nonce
  | T208 (mkconv a _ _ ci r) => of_size 20 a /\ Forall made_input ci /\ made_refund r
  | T209 (mkgen _ _ _ b x) => of_size 32 b /\ of_size 32 x
  | T210 (mkreg _ s _ ci r) => made_signature s /\ made_inputs ci /\ made_refund r
  | T144 (mkbot la ln m _ ci r _ s) => made_addresses la /\ made_names ln /\ (0 <= m <= 24)%Z /\ Forall made_input ci /\ made_refund r /\ made_signature s
  | T145 (mkupd b aa ad na nd m _ ci r s _) =>
      (0 <= b)%Z /\ made_addresses aa /\ made_addresses ad /\ made_names na /\ made_names nd /\ (0 <= m <= 24)%Z /\ Forall made_input ci /\ made_refund r /\ made_signature s
  | T146 (mkname a b ln _ ci r s q _ _) => (0 <= a)%Z /\ (0 <= b)%Z /\ made_names ln /\ made_inputs ci /\ made_refund r /\ made_signature s /\ made_signature q
  end.
(** the inputs, outputs and addresses given as objects are such themselves *)
Definition each_of {A} (P : A -> Prop) (v : seqarg A) : Prop := match v with SGList l => Forall P l | _ => True end.
Definition genuine_in (v : inarg) : Prop := match v with IGIn i => made_input i | IGOther => True end.
Definition genuine_out (v : outarg) : Prop := match v with OGOut o => made_output o | _ => True end.
Definition genuine_address (v : addrarg) : Prop := match v with AGVal (NVAddr a) => made_address a | _ => True end.
Definition genuine (o : op) : Prop :=
  match o with
  | CoinInputs v | StakeInputs v => each_of genuine_in v
  | CoinOutputs (OLList l) => Forall genuine_out l
  | CoinOutputs (OLOne x) => made_output x
  | StakeOutputs v => each_of genuine_out v
  | CoinInputAdd _ _ x | StakeInputAdd _ _ x => genuine_out x
  | Addresses v | AddressesToAdd v | AddressesToRemove v => each_of genuine_address v
  | AddressAdd v | AddressRemove v => genuine_address v
  | _ => True
  end.
End Made.
