(** What is to be in a coredump of the tasks, independent of the code's loops. *)
From Verif Require Import Base.

(** ** The tasks being tracked: creating a task tracks it when fewer than [cap] are, deleting it ends that *)
Fixpoint remove_one (t : Z) (l : list Z) : list Z :=
  match l with [] => [] | x :: l => if x =? t then l else x :: remove_one t l end.
Inductive event := Created (t : Z) | Deleted (t : Z).
Fixpoint tracked (cap : Z) (l : list Z) (h : list event) : list Z :=
  match h with
  | [] => l
  | Created t :: h => tracked cap (if zlen l <? cap then l ++ [t] else l) h
  | Deleted t :: h => tracked cap (remove_one t l) h
  end.
(** the tasks there are *)
Fixpoint alive (l : list Z) (h : list event) : list Z :=
  match h with
  | [] => l
  | Created t :: h => alive (l ++ [t]) h
  | Deleted t :: h => alive (remove_one t l) h
  end.
(** at no time more than [cap] *)
Definition never_more (cap : Z) (h : list event) : Prop := forall h1 h2, h = h1 ++ h2 -> zlen (alive [] h1) <= cap.
Definition task_of (e : event) : Z := match e with Created t => t | Deleted t => t end.

(** ** Memory *)
Definition in_ram (banks : list (Z * Z)) (x : Z) : Prop := exists lo len, In (lo, len) banks /\ lo <= x < lo + len.
(** the 32-bit little-endian number at an address *)
Definition holds (mem : Z -> option Z) (a v : Z) : Prop :=
  is_u32 v /\ forall k, 0 <= k < 4 -> mem (a + k) = Some (v / 2 ^ (8 * k) mod 256).
(** what an address check answers can be read, for sizes up to [lim] *)
Definition checks (lim : Z) (sane : Z -> Z -> Z) (mem : Z -> option Z) : Prop :=
  forall a n, 0 <= a -> 0 <= n <= lim -> 0 <= sane a n <= n /\
    forall x, a <= x < a + sane a n -> x + 1 < 2 ^ 32 /\ exists b, mem x = Some b /\ is_u8 b.
Definition readable (mem : Z -> option Z) (g : Z * Z) : Prop :=
  forall x, fst g <= x < fst g + snd g -> exists b, mem x = Some b /\ is_u8 b.

(** ** The regions of the tasks *)
Section R.
Context (sane : Z -> Z -> Z).
(** a task whose control block is at a valid address *)
Definition valid (tcb t : Z) : bool := negb (t =? 0) && negb (sane t tcb =? 0).
Definition tcb_regions (tcb : Z) (slots : list Z) : list (Z * Z) :=
  flat_map (fun t => if valid tcb t then [(t, sane t tcb)] else []) slots.
Definition stack_regions (tcb : Z) (stack : Z -> list (Z * Z)) (slots : list Z) : list (Z * Z) :=
  flat_map (fun t => if valid tcb t then stack t else []) slots.

(** FreeRTOS: [want] bytes from the saved top of the stack, as far as they are valid *)
Definition fr_stack (top : Z -> Z) (want t : Z) : list (Z * Z) :=
  if sane (top t) want =? 0 then [] else [(top t, sane (top t) want)].

(** the entries left over from an earlier state of the table *)
Definition scrubbed (tcb : Z) (slots slots' : list Z) : Prop :=
  Forall2 (fun s s' => s' = s \/ s' = 0 /\ valid tcb s = false) slots slots'.
(** entry [i] is renewed when its task is valid, [new] gives one for it, and the array still had room *)
Definition renewed (tcb num : Z) (new : Z -> option Z) (stack : Z -> list (Z * Z)) (slots wms wms' : list Z) : Prop :=
  zlen wms' = zlen wms /\ forall i t w, get slots i = Some t -> get wms i = Some w ->
    get wms' i = Some (if valid tcb t && (zlen (tcb_regions tcb slots) + zlen (stack_regions tcb stack (take i slots)) <? num)
                       then match new t with Some v => v | None => w end else w).
End R.

(** ** Zephyr *)
Record thread := mk_th { th_sp : Z; th_start : Z; th_size : Z; th_delta : Z }.
(** a thread whose stack pointer is in its stack *)
Definition sound (th : thread) : Prop :=
  0 <= th_start th /\ 0 <= th_delta th <= th_size th /\ th_start th + th_size th < 2 ^ 32 /\
  th_start th <= th_sp th <= th_start th + th_size th - th_delta th.
(** the first [m] of the [size] bytes from [a] on still have the paint, and no more *)
Definition untouched (mem : Z -> option Z) (a size m : Z) : Prop :=
  0 <= m <= size /\ (forall k, 0 <= k < m -> mem (a + k) = Some 0xAA) /\ (m < size -> mem (a + m) <> Some 0xAA).

(** the number of bytes of the stack never used.  With a sentinel its four bytes count as unused *)
Definition bytes_unused (sentinel : bool) (mem : Z -> option Z) (th : thread) (m : Z) : Prop :=
  if sentinel then 4 <= th_size th /\ untouched mem (th_start th + 4) (th_size th - 4) (m - 4)
  else untouched mem (th_start th) (th_size th) m.
(** what is stored for it: 0 stands for a stack that cannot be read, 2^32 - 1 for one used up *)
Definition watermark (sane : Z -> Z -> Z) (th : thread) (m : Z) : Z :=
  if sane (th_start th) (th_size th) =? th_size th then (if m =? 0 then 2 ^ 32 - 1 else m) else 0.

(** the part of the stack in use up to [want] bytes, or the whole stack; not for the running thread, unless [full] *)
Definition zp_stack (sane : Z -> Z -> Z) (full : bool) (want cur : Z) (th : Z -> thread) (t : Z) : list (Z * Z) :=
  if negb full && (t =? cur) then []
  else let a := if full then th_start (th t) else th_sp (th t) in
       let top := th_start (th t) + th_size (th t) - th_delta (th t) in
       let n := sane a (if full then top - a else Z.min (top - a) want) in
       if n =? 0 then [] else [(a, n)].
