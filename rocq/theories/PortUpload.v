(** Periodic uploads: ports/zephyr/common/memfault_http_periodic_upload.c (Z) and
    ports/esp_idf/memfault/common/memfault_platform_http_periodic_upload.c (E). *)
From Verif Require Import Base.

(** Seconds until the first check, Z:52-59, E:61-70; [rand]: 32 random bits.  [None]: division by 0. *)
Definition first_secs (interval rand : Z) : option Z :=
  if interval =? 0 then None
  else Some (u32 ((if 60 <=? interval then 60 else 5) + rand mod interval)).

(** ** Zephyr.  Z:61: a timer that expires after [first] and then every [interval].  Z:41-47: each expiry
    submits the work item to the queue's thread; an item that runs is queued, one that is queued is left.
    Simplification: the queue has no other work (the dedicated one has none).
    [n]: checks begun so far, [dur]: how long each takes, [fin]: the end of the last one, [pend]: queued.
    Result: beginnings and ends of the checks (the handler of Z:30-37, which posts if there is data). *)
Fixpoint z_run (dur : nat -> Z) (n : nat) (fin : Z) (pend : bool) (ts : list Z) : list (Z * Z) :=
  match ts with
  | [] => if pend then [(fin, fin + dur n)] else []
  | t :: r =>
      if pend then
        if fin <=? t then                                   (* the queued one began as the other ended *)
          (fin, fin + dur n) ::
          (if fin + dur n <=? t then (t, t + dur (S n)) :: z_run dur (S (S n)) (t + dur (S n)) false r
           else z_run dur (S n) (fin + dur n) true r)
        else z_run dur n fin true r
      else if fin <=? t then (t, t + dur n) :: z_run dur (S n) (t + dur n) false r
      else z_run dur n fin true r
  end.
Fixpoint expiries (first interval : Z) (k : nat) : list Z :=
  match k with O => [] | S k => first :: expiries (first + interval) interval k end.
Definition z_checks (dur : nat -> Z) (first interval : Z) (k : nat) : list (Z * Z) :=
  z_run dur 0 first false (expiries first interval k).

(** ** ESP-IDF.  E:72-73, in ticks of [period] milliseconds *)
Definition e_ticks (period secs : Z) : Z := u32 (1000 * secs) / period.
(** One turn of E:81-103: whether there is a connection, whether logs are wanted, how long the work takes. *)
Record turn := mk_tn { tn_conn : bool; tn_logs : bool; tn_work : Z }.
Inductive act := ALogs | APost | AOta.
Definition e_turn (ota : bool) (x : turn) : list act :=
  if tn_conn x then (if tn_logs x then [ALogs] else []) ++ [APost] ++ (if ota then [AOta] else []) else [].
(** The beginning of each turn and what it does; vTaskDelay counts from its call. *)
Fixpoint e_loop (ota : bool) (delay : Z) (now : Z) (l : list turn) : list (Z * list act) :=
  match l with
  | [] => []
  | x :: r => (now, e_turn ota x) :: e_loop ota delay (now + tn_work x + delay) r
  end.
(** E:60-104 *)
Definition e_task (ota : bool) (period interval rand : Z) (l : list turn) : option (list (Z * list act)) :=
  do f <- first_secs interval rand;
  Some (e_loop ota (e_ticks period interval) (e_ticks period f) l).
