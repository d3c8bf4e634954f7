(** Model of /repo/tfchain/types/FulfillmentTypes.py. *)
From Verif Require Import Base Encoders Primitive Types Conditions.

(** ED25519Signature (FulfillmentTypes.py:56-67), represented by its bytes; [sig_new] is the constructor. *)
Definition sig_new (v : bval) : res bytes :=
  do d <- bd_new v (Some 64%Z) (Some (s2b "hex")); Ok (bd_val d).
(** types/FulfillmentTypes.py:68-74: [from_json] *)
Definition sig_from_json (j : json) : res bytes :=
  match j with
  | JNull => sig_new BVNone
  | JStr s => sig_new (match s with [] => BVNone | _ => BVStr s end)
  | _ => Err TypeError
  end.
(** types/PrimitiveTypes.py:99-100: [json] of a BinaryData with hex encoding *)
Definition sig_json (s : bytes) : json := JStr (hex s).
(** types/FulfillmentTypes.py:76-81: Sia always a slice: Sia always a slice; Rivine a slice unless the signature is marked as array. *)
Definition sig_sia (s : bytes) : res bytes := sia_slice s.
(** types/FulfillmentTypes.py:83-91: a slice unless the signature is marked as array *)
Definition sig_riv (s : bytes) : res bytes := riv_slice s.
(** types/FulfillmentTypes.py:83-91: marked as array *)
Definition sig_riv_array (s : bytes) : res bytes := Ok s.

(** AtomicSwapSecret (ConditionTypes.py:469-486), represented by its bytes. *)
Definition secret_new (v : bval) : res bytes :=
  do d <- bd_new v (Some 32%Z) (Some (s2b "hex")); Ok (bd_val d).
(** types/ConditionTypes.py:478-482 *)
Definition secret_from_json (j : json) : res bytes :=
  match j with JStr s => secret_new (BVStr s) | _ => Err TypeError end.

(** types/FulfillmentTypes.py:231-572: Fulfilments.  A missing public key is the default key its getter returns (252-264, 418-430, 483-495); it is only read
    through the getter.  The same holds for the signature of a pair (432-442).  For a single signature and an atomic
    swap the difference between no signature and an empty one is observable ([is_fulfilled]). *)
Inductive ff :=
| FSingle (pk : pubkey) (sg : option bytes)
| FSwap (pk : pubkey) (sg : option bytes) (secret : option bytes)
| FMulti (pairs : list (pubkey * bytes)).

(** types/FulfillmentTypes.py:266-270, 497-501: the getter, empty for None *)
Definition odef (o : option bytes) : bytes := match o with Some b => b | None => [] end.

(** types/FulfillmentTypes.py:93-97, 244-246, 336-338, 479-481: type bytes *)
Definition ff_type (f : ff) : Z := match f with FSingle _ _ => 1 | FSwap _ _ _ => 2 | FMulti _ => 3 end.

(** types/FulfillmentTypes.py:20-33: [from_condition] *)
Definition from_condition (c : cond) : res ff :=
  match c with
  | CSwap _ _ _ _ => Ok (FSwap pk_default None None)
  | _ =>
      match cond_unwrap c with
      | CUnlockHash _ | CNil => Ok (FSingle pk_default None)
      | CMulti _ _ => Ok (FMulti [])
      | _ => Err TypeError
      end
  end.

(** ** Binary encoding: 201-221, 295-299, 371-375, 450-460, 544-548 *)
(** types/FulfillmentTypes.py:450-454 *)
Definition pair_sia (p : pubkey * bytes) : res bytes := pk_sia (fst p) +++ sig_sia (snd p).
(** types/FulfillmentTypes.py:456-460 *)
Definition pair_riv (p : pubkey * bytes) : res bytes := pk_riv (fst p) +++ sig_riv (snd p).
(** types/FulfillmentTypes.py:295-296, 371-372, 544-545 *)
Definition ff_sia_data (f : ff) : res bytes :=
  match f with
  | FSingle pk sg => pk_sia pk +++ sig_sia (odef sg)
  | FSwap pk sg se => pk_sia pk +++ sig_sia (odef sg) +++ Ok (odef se)
  | FMulti ps => sia_list pair_sia ps
  end.
(** types/FulfillmentTypes.py:298-299, 374-375, 547-548 *)
Definition ff_riv_data (f : ff) : res bytes :=
  match f with
  | FSingle pk sg => pk_riv pk +++ sig_riv (odef sg)
  | FSwap pk sg se => pk_riv pk +++ sig_riv (odef sg) +++ Ok (odef se)
  | FMulti ps => riv_list pair_riv ps
  end.
(** types/FulfillmentTypes.py:201-208 *)
Definition ff_sia (f : ff) : res bytes := Ok [Z.to_N (ff_type f)] +++ (do d <- ff_sia_data f; sia_slice d).
(** types/FulfillmentTypes.py:214-221 *)
Definition ff_riv (f : ff) : res bytes := riv_int 1 (ff_type f) +++ (do d <- ff_riv_data f; riv_slice d).

(** ** JSON: 191-195, 285-293, 361-369, 412-416, 444-448, 528-542 *)
(** types/FulfillmentTypes.py:289-293, 444-448 *)
Definition jpair (p : pubkey * bytes) : list (string * json) :=
  [("publickey"%string, JStr (pk_str (fst p))); ("signature"%string, sig_json (snd p))].
(** types/FulfillmentTypes.py:191-195, 289-293, 366-369, 535-542 *)
Definition ff_json (f : ff) : json :=
  JObj [("type"%string, JNum (ff_type f));
        ("data"%string,
          match f with
          | FSingle pk sg => JObj (jpair (pk, odef sg))
          | FSwap pk sg None => JObj (jpair (pk, odef sg))
          | FSwap pk sg (Some s) => JObj (jpair (pk, odef sg) ++ [("secret"%string, JStr (hex s))])
          | FMulti ps => JObj [("pairs"%string, JArr (map (fun p => JObj (jpair p)) ps))]
          end)].
(** types/FulfillmentTypes.py:285-287, 412-416 *)
Definition jpair_from (j : json) : res (pubkey * bytes) :=
  do p <- jget "publickey" j; do pk <- pk_from_json p;
  do s <- jget "signature" j; do sg <- sig_from_json s; Ok (pk, sg).
(** types/FulfillmentTypes.py:528-533: [ 'secret' in data ]: [data] was already indexed by a str, so it is a dict *)
Definition jhas (k : string) (j : json) : bool :=
  match j with JObj l => match jfind k l with Some _ => true | None => false end | _ => false end.
(** types/FulfillmentTypes.py:10-18, 169-176, 285-287, 361-364, 528-533: and 169-177 *)
Definition ff_from_json (j : json) : res ff :=
  do t <- jget_d "type" (JNum 0) j;
  do data <- jget_d "data" (JObj []) j;
  if jeq_int t 1 then do p <- jpair_from data; Ok (FSingle (fst p) (Some (snd p)))
  else if jeq_int t 3 then
    do ps <- jget "pairs" data; do l <- jelems ps; do l <- mapM jpair_from l; Ok (FMulti l)
  else if jeq_int t 2 then
    do p <- jpair_from data;
    if jhas "secret" data
    then do s <- jget "secret" data; do se <- secret_from_json s; Ok (FSwap (fst p) (Some (snd p)) (Some se))
    else Ok (FSwap (fst p) (Some (snd p)) None)
  else Err ValueError.

Section Hash.
Variable H : bytes -> bytes.

(** types/FulfillmentTypes.py:148-166: [str(public_key.unlockhash)] *)
Definition pk_address (p : pubkey) : res pystr := do u <- pk_unlockhash H p; uh_str H u.

(** ** Fulfilment state: 317-321, 395-399, 569-572 [is_fulfilled] for a parent condition *)
(** types/FulfillmentTypes.py:317-321, 395-399, 569-572 [is_fulfilled] for a parent condition *)
Definition ff_is_fulfilled (f : ff) (parent : cond) : res bool :=
  match f with
  | FSingle _ sg =>
      match cond_unwrap parent with
      | CNil | CUnlockHash _ => Ok (match sg with Some _ => true | None => false end)
      | _ => Err TypeError
      end
  | FMulti ps =>
      match cond_unwrap parent with
      | CMulti _ n => Ok (n <=? Z.of_nat (length ps))%Z
      | _ => Err TypeError
      end
  | FSwap _ sg _ =>
      match parent with
      | CSwap _ _ _ _ => Ok (match sg with Some _ => true | None => false end)
      | _ => Err TypeError
      end
  end.

(** ** Signature requests *)
(** types/FulfillmentTypes.py:104-135: The callback of a request is the fulfilment that issued it and is passed to [fulfil] explicitly; a
    request is its address and whether it was used. *)
Record request := mkrq { rq_uh : uh; rq_signed : bool }.

(** types/FulfillmentTypes.py:377-393: the owners whose address text is not among the signed ones *)
Fixpoint asked_multi (signed : list pystr) (us : list uh) : res (list uh) :=
  match us with
  | [] => Ok []
  | u :: us => do a <- uh_str H u; do r <- asked_multi signed us;
               Ok (if existsb (listN_eqb a) signed then r else u :: r)
  end.
(** types/FulfillmentTypes.py:301-315, 377-393, 550-567: [signature_requests_new]: the addresses asked, in order. *)
Definition ff_asked (f : ff) (parent : cond) : res (list uh) :=
  match f with
  | FSingle pk _ =>
      match cond_unwrap parent with
      | CNil | CUnlockHash _ =>
          do u <- cond_unlockhash H (cond_unwrap parent);
          do a <- uh_str H u;
          do b <- pk_address pk;
          Ok (if listN_eqb a b then [] else [u])
      | _ => Err TypeError
      end
  | FMulti ps =>
      match cond_unwrap parent with
      | CMulti us _ =>
          do signed <- mapM (fun p => pk_address (fst p)) ps;
          asked_multi signed us
      | _ => Err TypeError
      end
  | FSwap pk _ _ =>
      match parent with
      | CSwap s r _ _ =>
          do b <- pk_address pk;
          do a1 <- uh_str H s;
          do a2 <- uh_str H r;
          Ok ((if listN_eqb a1 b then [] else [s]) ++ (if listN_eqb a2 b then [] else [r]))
      | _ => Err TypeError
      end
  end.
(** types/FulfillmentTypes.py:108-120, 301-315, 377-393, 550-567 *)
Definition ff_requests (f : ff) (parent : cond) : res (list request) :=
  do us <- ff_asked f parent; Ok (map (fun u => mkrq u false) us).

(** types/FulfillmentTypes.py:137-146, 301-315, 377-393, 550-567: What a request hashes in addition to the transaction and input index, for the key of the signer:
    312-313, 387-388, 559-562. *)
Inductive extra := XInt (z : Z) | XKey (p : pubkey) | XSecret (s : bytes) | XBytes (b : bytes).
(** types/FulfillmentTypes.py:312-314, 387-388, 559-562 *)
Definition ff_extras (f : ff) (pk : pubkey) : list extra :=
  match f with
  | FSingle _ _ => []
  | FMulti _ => [XKey pk]
  | FSwap _ _ None => [XKey pk]
  | FSwap _ _ (Some s) => [XKey pk; XSecret s]
  end.

(** types/FulfillmentTypes.py:271-276, 502-507: [signature] setters (271-276, 502-507, 437-442): [None] clears. *)
Definition opt_sig (v : bval) : res (option bytes) :=
  match v with BVNone => Ok None | _ => do s <- sig_new v; Ok (Some s) end.
(** types/FulfillmentTypes.py:437-442 *)
Definition pair_sig (v : bval) : res bytes :=
  match v with BVNone => Ok [] | _ => sig_new v end.

(** types/FulfillmentTypes.py:278-283, 351-356, 521-526: [signature_add]: 278-283, 521-526 (the key is stored before the signature is looked at) and
    351-359 [add_pair].  Result: the fulfilment afterwards and the exception, if any. *)
Definition signature_add (f : ff) (pk : pubkey) (v : bval) : ff * res unit :=
  match f with
  | FSingle _ sg =>
      match opt_sig v with Ok s => (FSingle pk s, Ok tt) | Err e => (FSingle pk sg, Err e) end
  | FSwap _ sg se =>
      match opt_sig v with Ok s => (FSwap pk s se, Ok tt) | Err e => (FSwap pk sg se, Err e) end
  | FMulti ps =>
      if existsb (fun p => listN_eqb (pk_str (fst p)) (pk_str pk)) ps then (f, Err ValueError)
      else match pair_sig v with Ok s => (FMulti (ps ++ [(pk, s)]), Ok tt) | Err e => (f, Err e) end
  end.

(** types/FulfillmentTypes.py:148-164: [signature_fulfill]; the key argument is [None] when it is no PublicKey object. *)
Definition fulfil_check (r : request) (pk : option pubkey) : res pubkey :=
  do _ <- guard (negb (rq_signed r)) DoubleSignError;
  match pk with
  | None => Err TypeError
  | Some pk =>
      do a <- pk_address pk;
      if (uh_type (rq_uh r) =? 0)%Z then Ok pk
      else
        do w <- uh_str H (rq_uh r);
        do _ <- guard (listN_eqb w a) ValueError; Ok pk
  end.
(** types/FulfillmentTypes.py:148-166 [signature_fulfill] *)
Definition fulfil (r : request) (f : ff) (pk : option pubkey) (v : bval) : request * ff * res unit :=
  match fulfil_check r pk with
  | Err e => (r, f, Err e)
  | Ok pk =>
      match signature_add f pk v with
      | (f', Ok _) => (mkrq (rq_uh r) true, f', Ok tt)
      | (f', Err e) => (r, f', Err e)
      end
  end.

End Hash.
