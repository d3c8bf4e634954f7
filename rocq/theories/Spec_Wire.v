(** The layout of the bytes of addresses, conditions, fulfilments and transactions (C84), field by field, independent of the encoders. *)
From Verif Require Import Base Types Conditions Fulfillments ThreeBotTypes Txn Spec_Forms Spec_Merkle Spec_Texts.

(** ** Fields *)
Definition field := bytes -> Prop.
Definition exactly (x : bytes) : field := fun b => b = x.
(** what cannot be written *)
Definition never : field := fun _ => False.
(** one after the other *)
Inductive fields : list field -> field :=
| no_field : fields [] []
| next_field (F : field) l a b : F a -> fields l b -> fields (F :: l) (a ++ b).
Definition each {A} (P : A -> field) (l : list A) : field := fields (map P l).
(** the two encodings differ in how lengths and keys are written *)
Inductive coding := Sia | Rivine.
Definition count (c : coding) (n : N) : field := match c with Sia => sia_length n | Rivine => rivine_length n end.
Definition sized (c : coding) (F : field) : field := fun b => exists d, F d /\ fields [count c (lenN d); exactly d] b.
Definition listed {A} (c : coding) (P : A -> field) (l : list A) : field := fields [count c (lenN l); each P l].
(** an amount: its number, the highest byte first and not zero *)
Definition big (n : N) : field := fun b => Forall (fun x => x < 256) b /\ be_dec b = n /\ forall r, b <> 0 :: r.
Definition amount (c : coding) (n : N) : field := sized c (big n).
(** a name filled up to 16 bytes with zeros *)
Definition label (name : string) : field := exactly (s2b name ++ repeat 0 (16 - String.length name)).

(** ** Keys, addresses and conditions *)
Definition key (c : coding) (p : pubkey) : field :=
  match c with
  | Sia => fields [label (match pk_spec p with PKNil => "" | PKEd25519 => "ed25519" end); sized Sia (exactly (pk_hash p))]
  | Rivine => fields [number_in 1 (match pk_spec p with PKNil => 0 | PKEd25519 => 1 end); exactly (pk_hash p)]
  end.
Definition address (u : uh) : field := fields [number_in 1 (uh_type u); exactly (uh_hash u)].
Definition kind (k : cond) : Z := match k with CNil => 0 | CUnlockHash _ => 1 | CSwap _ _ _ _ => 2 | CLock _ _ => 3 | CMulti _ _ => 4 end.
Fixpoint terms (c : coding) (k : cond) : list field :=
  match k with
  | CNil => []
  | CUnlockHash u => [address u]
  | CSwap sender receiver secret lock =>
      [address sender; address receiver; match secret with Some h => exactly h | None => sized c (exactly []) end; number_in 8 lock]
  | CLock lock inner => number_in 8 lock :: number_in 1 (kind inner) :: terms c inner
  | CMulti owners required => [number_in 8 required; listed c address owners]
  end.
Definition condition (c : coding) (k : cond) : field := fields [number_in 1 (kind k); sized c (fields (terms c k))].

(** ** Fulfilments, inputs and outputs *)
Definition or_empty (o : option bytes) : bytes := match o with Some b => b | None => [] end.
Definition signed_by (c : coding) (p : pubkey * bytes) : field := fields [key c (fst p); sized c (exactly (snd p))].
Definition fulfilment (c : coding) (f : ff) : field :=
  match f with
  | FSingle p s => fields [number_in 1 1; sized c (signed_by c (p, or_empty s))]
  | FSwap p s secret => fields [number_in 1 2; sized c (fields [signed_by c (p, or_empty s); exactly (or_empty secret)])]
  | FMulti ps => fields [number_in 1 3; sized c (listed c (signed_by c) ps)]
  end.
Definition taken (c : coding) (i : input) : field := fields [exactly (i_parent i); fulfilment c (i_ff i)].
Definition given (c : coding) (o : output) : field := fields [amount c (o_value o); condition c (o_cond o)].
Definition parents (c : coding) (l : list input) : field :=
  let ids := each (fun i => exactly (i_parent i)) l in
  match c with Sia => fields [count Sia (lenN l); ids] | Rivine => fields [number_in 8 (Z.of_nat (length l)); ids] end.
Definition object (c : coding) (x : extra) : field :=
  match x with XInt z => number_in 8 z | XKey p => key c p | XSecret b | XBytes b => exactly b end.

(** ** Pieces of the special transactions *)
Definition worth_of (o : option N) : N := match o with Some n => n | None => 0 end.
Definition key_of (o : option pubkey) : pubkey := match o with Some p => p | None => mkpk PKNil [] end.
Definition change (o : option output) : field := match o with None => number_in 1 0 | Some x => fields [number_in 1 1; given Rivine x] end.
Definition change_after_flag (o : option output) : list field := match o with None => [] | Some x => [given Rivine x] end.
Definition own_signature (s : bsig) : field :=
  match s with None => exactly [] | Some (true, b) => exactly b | Some (false, b) => sized Rivine (exactly b) end.
Definition network_address (a : naddr) : field :=
  fields [number_in 1 (Z.of_N (N.lor (na_type a) (4 * lenN (na_bytes a)))); exactly (na_bytes a)].
Definition bot_name (s : pystr) : field := fields [rivine_length (lenN s); text_bytes s].
Definition two_counts (a b : nat) : field := number_in 1 (Z.of_N (N.lor (N.of_nat a) (16 * N.of_nat b))).
(** months and three flags in one byte *)
Definition flagged (months : Z) (addresses names : bool) (refund : option output) : field := fun b =>
  (0 <= months <= 24)%Z /\
  number_in 1 (months + (if addresses then 32 else 0) + (if names then 64 else 0) + match refund with Some _ => 128 | None => 0 end) b.
Definition present {A} (l : list A) : bool := match l with [] => false | _ :: _ => true end.
Definition changes {A} (P : A -> field) (add remove : list A) : list field :=
  if present add || present remove then [two_counts (length add) (length remove); each P add; each P remove] else [].

(** ** The address of a key and of a condition *)
(** texts in the order of their characters *)
Inductive lower_than : pystr -> pystr -> Prop :=
| lower_end c t : lower_than [] (c :: t)
| lower_here c d s t : c < d -> lower_than (c :: s) (d :: t)
| lower_later c s t : lower_than s t -> lower_than (c :: s) (c :: t).

Section Hash.
Variable H : bytes -> bytes.

(** the type, the hash (zeros if there is none) and six bytes of the hash of both *)
Definition printed (u : uh) (s : pystr) : Prop :=
  exists n a b c, uh_type u = Z.of_N n /\ s = a ++ b ++ c /\ lower_text a [n] /\ 
    lower_text b (match uh_hash u with [] => repeat 0 32 | h => h end) /\ 
    lower_text c (if n =? 0 then repeat 0 6 else firstn 6 (H (n :: uh_hash u))).
Definition key_address (p : pubkey) (u : uh) : Prop := exists d, sized Sia (key Sia p) d /\ u = mkuh 1 (H d).
(** [text u s]: the address [u] is printed as [s] *)
Variable text : uh -> pystr -> Prop.
(** in the order of their texts; of those with the same text the first comes first *)
Inductive by_text : list uh -> list uh -> Prop :=
| by_text_end : by_text [] []
| by_text_next before u after s rest :
    text u s -> (forall v, In v before -> exists t, text v t /\ lower_than s t) ->
    (forall v, In v after -> exists t, text v t /\ (s = t \/ lower_than s t)) ->
    by_text (before ++ after) rest -> by_text (before ++ u :: after) (u :: rest).
Inductive paid_to : cond -> uh -> Prop :=
| paid_nil : paid_to CNil (mkuh 0 [])
| paid_address u : paid_to (CUnlockHash u) u
| paid_swap s r h l d : sized Sia (fields (terms Rivine (CSwap s r h l))) d -> paid_to (CSwap s r h l) (mkuh 2 (H d))
| paid_lock l k u : paid_to k u -> paid_to (CLock l k) u
| paid_multi us n sorted leaves root :
    by_text us sorted ->
    Forall2 (fun (F : field) b => F b) (number_in 8 (Z.of_nat (length us)) :: map address sorted ++ [number_in 8 n]) leaves ->
    merkle H leaves root -> paid_to (CMulti us n) (mkuh 3 root).

(** ** Transactions *)
Definition old_key (f : ff) (P : pubkey -> field) : field := match f with FSingle p _ | FSwap p _ _ => P p | FMulti _ => never end.
Definition old_signature (f : ff) : field := match f with FSingle _ s | FSwap _ s _ => sized Sia (exactly (or_empty s)) | FMulti _ => never end.
Definition old_owner (i : input) : field :=
  fields [exactly (i_parent i); old_key (i_ff i) (fun p b => exists u, key_address p u /\ address u b)].
Definition old_taken (i : input) : field :=
  fields [exactly (i_parent i); number_in 1 1; old_key (i_ff i) (fun p => sized Sia (key Sia p)); old_signature (i_ff i)].
Definition old_given (o : output) : field := fields [amount Sia (o_value o); fun b => exists u, paid_to (o_cond o) u /\ address u b].

Definition name_of (t : txn) : field :=
  match t with
  | T1 _ => exactly []
  | TMint m => match m_new m with MCond _ => label "minter defin tx" | MCoins _ => label "coin mint tx" end
  | T208 _ => label "erc20 convert tx" | T209 _ => label "erc20 coingen tx" | T210 _ => label "erc20 addrreg tx"
  | T144 _ => label "bot register tx" | T145 _ => label "bot recupdate tx" | T146 _ => label "bot nametrans tx"
  end.
Definition number_of (t : txn) : Z :=
  match t with
  | T1 _ => 1
  | TMint m => match m_new m with MCond _ => 128 | MCoins _ => 129 end
  | T208 _ => 208 | T209 _ => 209 | T210 _ => 210 | T144 _ => 144 | T145 _ => 145 | T146 _ => 146
  end.
Definition minted (m : mint) : field := match m with MCond k => condition Sia k | MCoins os => listed Sia (given Sia) os end.
(** the fee of a registration: 10 TFT *)
Definition registration : N := 10000000000.

(** what is signed *)
Definition signed (t : txn) (xs : list extra) : list field :=
  match t with
  | T1 t =>
      if s_legacy t then
        [each (object Sia) xs; each old_owner (s_cin t); listed Sia old_given (s_cout t); each old_owner (s_bin t); listed Sia old_given (s_bout t);
         listed Sia (amount Sia) (s_fees t); sized Sia (exactly (s_data t))]
      else
        [number_in 1 1; each (object Sia) xs; parents Sia (s_cin t); listed Sia (given Sia) (s_cout t); parents Sia (s_bin t); listed Sia (given Sia) (s_bout t);
         listed Sia (amount Sia) (s_fees t); sized Sia (exactly (s_data t))]
  | TMint m =>
      [number_in 1 (number_of t); name_of t; exactly (m_nonce m); each (object Sia) xs; minted (m_new m);
       listed Sia (amount Sia) (m_fees m); sized Sia (exactly (m_data m))]
  | T208 c =>
      [number_in 1 208; name_of t; exactly (c_addr c); amount Rivine (c_value c); each (object Rivine) xs; parents Rivine (c_cin c);
       amount Rivine (worth_of (c_fee c)); change (c_refund c)]
  | T209 g =>
      [number_in 1 209; name_of t; each (object Sia) xs; address (g_addr g); amount Sia (g_value g); amount Sia (worth_of (g_fee g));
       exactly (g_block g); exactly (g_txid g)]
  | T210 r =>
      match r_cin r with
      | None => [never]
      | Some cin =>
          [number_in 1 210; name_of t; key Rivine (key_of (r_pk r)); each (object Rivine) xs; parents Rivine cin;
           amount Rivine registration; amount Rivine (worth_of (r_fee r)); change (r_refund r)]
      end
  | T144 b =>
      [number_in 1 144; name_of t; each (object Rivine) xs; listed Rivine network_address (b_addrs b); listed Rivine bot_name (b_names b);
       number_in 1 (b_months b); parents Rivine (b_cin b); amount Rivine (worth_of (b_fee b)); change (b_refund b); key Rivine (key_of (b_pk b))]
  | T145 u =>
      [number_in 1 145; name_of t; number_in 4 (u_id u); each (object Rivine) xs;
       listed Rivine network_address (u_addr_add u); listed Rivine network_address (u_addr_del u);
       listed Rivine bot_name (u_name_add u); listed Rivine bot_name (u_name_del u);
       number_in 1 (u_months u); parents Rivine (u_cin u); amount Rivine (worth_of (u_fee u)); change (u_refund u)]
  | T146 n =>
      match n_cin n with
      | None => [never]
      | Some cin =>
          [number_in 1 146; name_of t; number_in 4 (n_sender n); number_in 4 (n_receiver n); each (object Rivine) xs;
           listed Rivine bot_name (n_names n); parents Rivine cin; amount Rivine (worth_of (n_fee n)); change (n_refund n)]
      end
  end.

(** what it holds *)
Definition contents (t : txn) : list field :=
  match t with
  | T1 t =>
      if s_legacy t then
        [listed Sia old_taken (s_cin t); listed Sia old_given (s_cout t); listed Sia old_taken (s_bin t); listed Sia old_given (s_bout t);
         listed Sia (amount Sia) (s_fees t); sized Sia (exactly (s_data t))]
      else
        [listed Sia (taken Sia) (s_cin t); listed Sia (given Sia) (s_cout t); listed Sia (taken Sia) (s_bin t); listed Sia (given Sia) (s_bout t);
         listed Sia (amount Sia) (s_fees t); sized Sia (exactly (s_data t))]
  | TMint m =>
      [exactly (m_nonce m); fulfilment Sia (match m_ff m with Some f => f | None => FSingle (mkpk PKNil []) None end); minted (m_new m);
       listed Sia (amount Sia) (m_fees m); sized Sia (exactly (m_data m))]
  | T208 c =>
      [exactly (c_addr c); amount Rivine (c_value c); amount Rivine (worth_of (c_fee c)); listed Rivine (taken Rivine) (c_cin c); change (c_refund c)]
  | T209 g =>
      [address (g_addr g); amount Rivine (g_value g); amount Rivine (worth_of (g_fee g)); exactly (g_block g); exactly (g_txid g)]
  | T210 r =>
      [key Rivine (key_of (r_pk r)); own_signature (r_sig r); amount Rivine registration; amount Rivine (worth_of (r_fee r));
       match r_cin r with None => never | Some cin => listed Rivine (taken Rivine) cin end; change (r_refund r)]
  | T144 b =>
      [flagged (b_months b) (present (b_addrs b)) (present (b_names b)) (b_refund b); two_counts (length (b_addrs b)) (length (b_names b));
       each network_address (b_addrs b); each bot_name (b_names b); amount Rivine (worth_of (b_fee b)); listed Rivine (taken Rivine) (b_cin b)] ++
      change_after_flag (b_refund b) ++ [key Rivine (key_of (b_pk b)); own_signature (b_sig b)]
  | T145 u =>
      [number_in 4 (u_id u); flagged (u_months u) (present (u_addr_add u) || present (u_addr_del u)) (present (u_name_add u) || present (u_name_del u)) (u_refund u)] ++
      changes network_address (u_addr_add u) (u_addr_del u) ++ changes bot_name (u_name_add u) (u_name_del u) ++
      [amount Rivine (worth_of (u_fee u)); listed Rivine (taken Rivine) (u_cin u)] ++ change_after_flag (u_refund u) ++ [own_signature (u_sig u)]
  | T146 n =>
      [number_in 4 (n_sender n); own_signature (n_ssig n); number_in 4 (n_receiver n); own_signature (n_rsig n);
       number_in 1 (Z.of_N (N.lor (N.of_nat (length (n_names n))) (match n_refund n with Some _ => 16 | None => 0 end)));
       each bot_name (n_names n); amount Rivine (worth_of (n_fee n)); match n_cin n with None => never | Some cin => listed Rivine (taken Rivine) cin end] ++
      change_after_flag (n_refund n)
  end.
(** the whole transaction, and what its identifier is the hash of *)
Definition written (t : txn) : field :=
  match t with
  | T1 s => if s_legacy s then fields (number_in 1 0 :: contents t) else fields [number_in 1 1; sized Sia (fields (contents t))]
  | _ => fields (number_in 1 (number_of t) :: contents t)
  end.
Definition identified (t : txn) : field := match t with T1 _ => written t | _ => fields (name_of t :: contents t) end.
(** an output is identified by its kind, its transaction and its number; the two names of a legacy transaction are one byte short *)
Definition short (name : string) (n : nat) : field := exactly (s2b name ++ repeat 0 n).
Definition output_field (stake : bool) (t : txn) (index : Z) : field :=
  fields [match t with
          | T1 s => if s_legacy s then (if stake then short "blstake output" 1 else short "coin output" 4) else label (if stake then "blstake output" else "coin output")
          | _ => label (if stake then "blstake output" else "coin output")
          end; identified t; number_in 8 index].
End Hash.
