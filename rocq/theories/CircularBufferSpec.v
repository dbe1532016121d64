(** Abstract specification: a byte queue with a capacity.  Only the vocabulary of calls and
    results ([cb_op], [cb_res]) is shared with the model. *)
From Verif Require Import Base CircularBuffer.

(** Calls made to a read callback: consecutive, non-empty, starting at [from]; together they
    carry [d]. *)
Fixpoint calls_carry (from : Z) (tr : list (Z * list Z)) (d : list Z) : Prop :=
  match tr with
  | [] => d = []
  | (o, x) :: r => o = from /\ 0 < zlen x /\ exists d', d = x ++ d' /\ calls_carry (from + zlen x) r d'
  end.

(** Every call but possibly the last was accepted; the last one was accepted iff [b]. *)
Definition verdicts (f : list (Z * list Z) -> Z -> list Z -> bool) (tr : list (Z * list Z)) (b : bool) : Prop :=
  forall i p o x s, tr = p ++ (o, x) :: s -> zlen p = i ->
    f p o x = (match s with [] => b | _ => true end).

(** One call on a queue [q] of capacity [cap] (relation between call, result, next queue). *)
Definition q_step (cap : Z) (q : list Z) (o : cb_op) (r : cb_res) (q' : list Z) : Prop :=
  match o, r with
  | OWrite d, RBool b =>
      b = (zlen q + zlen d <=? cap) /\ q' = if b then q ++ d else q
  | OWriteAt k d, RBool b =>
      b = ((k <=? zlen q) && (zlen q - k + zlen d <=? cap)) /\
      q' = if b then take (zlen q - k) q ++ d ++ drop (zlen q - k + zlen d) q else q
  | ORead k n, RData x =>
      q' = q /\ x = if k + n <=? zlen q then Some (take n (drop k q)) else None
  | OPtr k, RView x =>
      q' = q /\
      match x with
      | None => zlen q < k
      | Some d => k <= zlen q /\ (exists rest, drop k q = d ++ rest) /\ (k < zlen q -> d <> [])
      end
  | OReadCb k n f, RCalls b tr =>
      q' = q /\
      if k + n <=? zlen q
      then (exists d rest, calls_carry 0 tr d /\ take n (drop k q) = d ++ rest /\ (b = true -> rest = []))
           /\ verdicts f tr b /\ zlen tr <= 2 /\ (tr = [] -> b = true)
      else b = false /\ tr = []
  | OConsume n, RBool b => b = (n <=? zlen q) /\ q' = if b then drop n q else q
  | OConsumeEnd n, RBool b => b = (n <=? zlen q) /\ q' = if b then take (zlen q - n) q else q
  | OReadSize, RSize n => q' = q /\ n = zlen q
  | OWriteSize, RSize n => q' = q /\ n = cap - zlen q
  | _, _ => False
  end.

Fixpoint q_run (cap : Z) (q : list Z) (ops : list cb_op) (rs : list cb_res) (q' : list Z) : Prop :=
  match ops, rs with
  | [], [] => q' = q
  | o :: ops, r :: rs => exists q1, q_step cap q o r q1 /\ q_run cap q1 ops rs q'
  | _, _ => False
  end.

(** Arguments a caller can pass: [size_t] values whose sum does not overflow. *)
Definition op_ok (o : cb_op) : Prop :=
  match o with
  | OWrite d => bytes d /\ is_u32 (zlen d)
  | OWriteAt k d => bytes d /\ is_u32 k /\ is_u32 (zlen d)
  | ORead k n => is_u32 k /\ is_u32 n /\ is_u32 (k + n)
  | OReadCb k n _ => is_u32 k /\ is_u32 n /\ is_u32 (k + n)
  | OPtr k => is_u32 k
  | OConsume n | OConsumeEnd n => is_u32 n
  | OReadSize | OWriteSize => True
  end.
