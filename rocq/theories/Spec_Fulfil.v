(** Vocabulary for the properties of fulfilments and signature requests. *)
From Verif Require Import Base Primitive Types Conditions Fulfillments Spec_Types.

(** A 64 byte signature. *)
Definition sig64 (s : bytes) : Prop := length s = 64%nat /\ wf_bytes s.
Definition key32 (p : pubkey) : Prop := hash32 (pk_hash p).

(** The signatures a fulfilment holds. *)
Definition signatures (f : ff) : list bytes :=
  match f with
  | FSingle _ (Some s) | FSwap _ (Some s) _ => [s]
  | FSingle _ None | FSwap _ None _ => []
  | FMulti ps => map snd ps
  end.
(** The key it records for its signature(s). *)
Definition signers (f : ff) : list pubkey :=
  match f with
  | FSingle p (Some _) | FSwap p (Some _) _ => [p]
  | FSingle _ None | FSwap _ None _ => []
  | FMulti ps => map fst ps
  end.

(** The key [p] belongs to the address [u]: both print the same. *)
Definition owns (H : bytes -> bytes) (p : pubkey) (u : uh) : Prop :=
  exists a, pk_address H p = Ok a /\ uh_str H u = Ok a.

(** A history of one input: new requests are asked for at any time (for the parent condition [c]), and any request handed
    out so far is attempted with any key and any signature. *)
Inductive sop := Ask | Try (i : nat) (pk : option pubkey) (v : bval).
Definition sstate : Type := list request * ff.
Fixpoint upd {A} (l : list A) (i : nat) (x : A) : list A :=
  match l, i with
  | [], _ => []
  | _ :: l, O => x :: l
  | y :: l, S i => y :: upd l i x
  end.
(** What an attempt answers; [None]: no attempt was made. *)
Definition sstep (H : bytes -> bytes) (c : cond) (st : sstate) (o : sop) : sstate * option (res unit) :=
  match o with
  | Ask => match ff_requests H (snd st) c with
           | Ok rs => ((fst st ++ rs, snd st), None)
           | Err _ => (st, None)
           end
  | Try i pk v =>
      match nth_error (fst st) i with
      | None => (st, None)
      | Some r => let '(r', f', a) := fulfil H r (snd st) pk v in ((upd (fst st) i r', f'), Some a)
      end
  end.
Fixpoint srun (H : bytes -> bytes) (c : cond) (st : sstate) (os : list sop) : sstate * list (sop * option (res unit)) :=
  match os with
  | [] => (st, [])
  | o :: os =>
      let '(st1, a) := sstep H c st o in
      let '(st2, t) := srun H c st1 os in
      (st2, (o, a) :: t)
  end.
(** The number of accepted attempts at request [i]. *)
Fixpoint accepted (i : nat) (t : list (sop * option (res unit))) : nat :=
  match t with
  | [] => 0%nat
  | (Try j _ _, Some (Ok _)) :: t => ((if (i =? j)%nat then 1 else 0) + accepted i t)%nat
  | _ :: t => accepted i t
  end.

(** A fulfilment whose parts have their normal size and which is signed (a pair may still lack its signature). *)
Definition signed_ff (f : ff) : Prop :=
  match f with
  | FSingle p (Some s) => key32 p /\ sig64 s
  | FSwap p (Some s) se => key32 p /\ sig64 s /\ (forall x, se = Some x -> hash32 x)
  | FMulti ps => Forall (fun p => key32 (fst p) /\ (sig64 (snd p) \/ snd p = [])) ps
  | _ => False
  end.
