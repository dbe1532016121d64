(** Specification of the Zephyr log backends: what a history of messages comes to as calls of the SDK's log. *)
From Verif Require Import Base Log ZephyrLog.

Definition chars (l : list item) : list Z := List.concat (List.map (fun i => match i with Ch c => [c] | _ => [] end) l).
Definition uses (l : list item) : list log_op := List.concat (List.map (fun i => match i with Use o => [o] | _ => [] end) l).

Definition severity (z : Z) : Z :=
  match z with 1 => 3 | 2 => 2 | 3 => 1 | _ => 0 end.   (* error, warning, info, anything else debug *)
Definition eol (c : Z) : Prop := c = 13 \/ c = 10.

(** Immediate mode: the first 128 characters, without the line ends they end in, but at least one character *)
Definition line (t l : list Z) : Prop :=
  exists tail, take 128 t = l ++ tail /\ Forall eol tail /\ 1 <= zlen l /\
    (zlen l = 1 \/ exists body c, l = body ++ [c] /\ ~ eol c).
(** Deferred mode: pieces of 128, the last one shorter or as long *)
Inductive pieces : list Z -> list (list Z) -> Prop :=
| pc_last t : zlen t <= 128 -> pieces t [t]
| pc_more p t r : zlen p = 128 -> t <> [] -> pieces t r -> pieces (p ++ t) (p :: r).
(** Minimal mode: what the buffer of 128 holds, a zero at its end if the message is longer, cut to a log's size *)
Definition printed (t : list Z) : list Z := if zlen t <=? 127 then t else take 127 t ++ [0].

Inductive mixed {A} : list A -> list A -> list A -> Prop :=
| mx_nil : mixed [] [] []
| mx_l x a b c : mixed a b c -> mixed (x :: a) b (x :: c)
| mx_r x a b c : mixed a b c -> mixed a (x :: b) (x :: c).

Definition room (ts : option Z) : Z := match ts with Some _ => 4 | None => 0 end.

(** The calls a message comes to *)
Definition tells (cfg : Z) (m : mode) (isr : bool) (z : Z) (ts : option Z) (l : list item) (ops : list log_op) : Prop :=
  match m with
  | Immediate =>
      if isr then ops = [] else exists t, line (chars l) t /\ ops = uses l ++ [LSave (severity z) 0 ts t]
  | Deferred => exists ps, pieces (chars l) ps /\ mixed (uses l) (List.map (LSave (severity z) 0 ts) ps) ops
  | Minimal => ops = uses l ++ (if zlen (chars l) =? 0 then [] else [LSave 1 0 ts (take (cfg - room ts) (printed (chars l)))])
  end.

(** [seen]: a message came before *)
Inductive amounts (cfg : Z) (m : mode) : bool -> list z_op -> list log_op -> Prop :=
| am_nil seen : amounts cfg m seen [] []
| am_message seen isr z ts l ops h r :
    tells cfg m isr z ts l ops ->
    amounts cfg m (seen || negb (match m with Immediate => isr | _ => false end)) h r ->
    amounts cfg m seen (ZMessage isr z ts l :: h) (ops ++ r)
| am_dropped junk ts parts h r :
    m = Deferred -> amounts cfg m true h r ->
    amounts cfg m true (ZDropped junk ts parts :: h) (List.map (LSave junk 0 ts) parts ++ r)
| am_undropped seen junk ts parts h r : m <> Deferred -> amounts cfg m seen h r -> amounts cfg m seen (ZDropped junk ts parts :: h) r
| am_use seen o h r : amounts cfg m seen h r -> amounts cfg m seen (ZUse o :: h) (o :: r).

(** Messages that do not run over the buffer: in immediate mode not empty, in minimal mode not longer than the buffer
    unless logs are no longer than it *)
Definition message_ok (cfg : Z) (m : mode) (o : z_op) : Prop :=
  match o with
  | ZMessage isr _ _ l =>
      match m with Immediate => isr = true \/ chars l <> [] | Minimal => cfg <= 128 \/ zlen (chars l) <= 127 | Deferred => True end
  | _ => True
  end.
(** A notice of dropped messages needs a message before it. *)
Fixpoint noticed (m : mode) (seen : bool) (h : list z_op) : Prop :=
  match h with
  | [] => True
  | ZMessage isr _ _ _ :: h => noticed m (seen || negb (match m with Immediate => isr | _ => false end)) h
  | ZDropped _ _ _ :: h => (m = Deferred -> seen = true) /\ noticed m seen h
  | ZUse _ :: h => noticed m seen h
  end.
