(** Specification of Zephyr's old log backend: what a history of messages comes to as calls of the SDK's log. *)
From Verif Require Import Base Log ZephyrLog ZephyrLogSpec ZephyrLegacy.

Definition text_of (l : list litem) : list Z := flat_map (fun i => match i with LCh c => [c] | LUses _ => [] end) l.
Definition others (l : list litem) : list log_op := flat_map (fun i => match i with LUses o => [o] | LCh _ => [] end) l.

(** Whose level a text has that is not part of a message: no message came yet, one of this level is being written,
    or one was. *)
Inductive speaker := Nobody | Speaking (level : Z) | Spoke.
Definition said (w : speaker) (junk : Z) : Z := match w with Nobody => 3 | Speaking level => level | Spoke => junk end.
(** What is saved outside interrupts *)
Definition unless (isr : bool) (ops : list log_op) : list log_op := if isr then [] else ops.

(** [left]: text of a message that was not finished *)
Inductive comes_to (cfg : Z) : speaker -> list Z -> list l_op -> list log_op -> Prop :=
| ct_nil w left : comes_to cfg w left [] []
| ct_message w left isr z ts l ps ops h r :
    z <> 0 -> pieces (left ++ text_of l) ps ->
    mixed (others l) (unless isr (List.map (LSave (severity z) 0 ts) ps)) ops ->
    comes_to cfg Spoke [] h r ->
    comes_to cfg w left (LPut true isr z ts l :: h) (ops ++ r)
| ct_part w left isr z ts l ps p ops h r :
    z <> 0 -> pieces (left ++ text_of l) (ps ++ [p]) ->
    mixed (others l) (unless isr (List.map (LSave (severity z) 0 ts) ps)) ops ->
    comes_to cfg (Speaking (severity z)) p h r ->
    comes_to cfg w left (LPut false isr z ts l :: h) (ops ++ r)
| ct_none w left whole isr ts l h r :
    comes_to cfg w left h r -> comes_to cfg w left (LPut whole isr 0 ts l :: h) r
| ct_panic w left isr junk ts h r :
    comes_to cfg w [] h r ->
    comes_to cfg w left (LPanic isr junk ts :: h) (unless isr [LSave (said w junk) 0 ts left] ++ r)
| ct_drop w left isr junk ts parts h r :
    comes_to cfg w left h r ->
    comes_to cfg w left (LDrop isr junk ts parts :: h) (unless isr (List.map (LSave (said w junk) 0 ts) parts) ++ r)
| ct_sync w left isr z ts text h r :
    comes_to cfg w left h r ->
    comes_to cfg w left (LSync isr z ts text :: h)
      (unless isr (match text with [] => [] | _ => [LSave (severity z) 0 ts (take cfg text)] end) ++ r)
| ct_other w left o h r : comes_to cfg w left h r -> comes_to cfg w left (LOther o :: h) (o :: r).

(** Messages in interrupts, and nothing else *)
Definition in_interrupt (o : l_op) : Prop :=
  match o with
  | LPut _ isr _ _ l => isr = true /\ others l = []
  | LPanic isr _ _ | LDrop isr _ _ _ | LSync isr _ _ _ => isr = true
  | LOther _ => False
  end.
