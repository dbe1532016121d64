(** Which calls the two tasks of the event storage make, seen from the calls themselves. *)
From Verif Require Import Base EventStorage.

(** The task that records events, thread 0, between calls: no event begun, or one begun that may take
    [space] bytes and has [used] (components/core/src/memfault_serializer_helper.c:204-218: the encoder
    is limited to the space begin_write returned, and finish_write is always called). *)
Inductive writing := Closed | Opened (space used : Z).
Fixpoint writing_of (w : writing) (h : list (es_op * es_res)) : writing :=
  match h with
  | [] => w
  | (EBegin, RSpace n) :: r => writing_of (Opened n 0) r
  | (EAppend d, _) :: r => writing_of (match w with Opened n a => Opened n (a + zlen d) | Closed => Closed end) r
  | (EFinish _, _) :: r => writing_of Closed r
  | _ :: r => writing_of w r
  end.
(** What it may call next.  An event that is kept has 1 to 65532 bytes. *)
Definition recorder_may (h : list (es_op * es_res)) (o : es_op) : Prop :=
  match writing_of Closed h, o with
  | Closed, EBegin => True
  | Opened n a, EAppend d => bytes d /\ a + zlen d <= n /\ 0 < n
  | Opened n a, EFinish rollback => rollback = false -> 1 <= a <= 65532
  | _, _ => False
  end.
(** The task that sends the data, thread 1: any of the data source's calls, in any order. *)
Definition sender_may (o : es_op) : Prop :=
  match o with
  | EHas | EMark => True
  | ERead off n => 0 <= off /\ 0 <= n /\ off + n < 4294967296
  | _ => False
  end.
Definition one_each (t : nat) (h : list (es_op * es_res)) (o : es_op) : Prop :=
  match t with O => recorder_may h o | S O => sender_may o | _ => False end.
(** Several tasks that record, none that sends; and one that records, with several that send. *)
Definition recorders (t : nat) (h : list (es_op * es_res)) (o : es_op) : Prop :=
  match t with S O => False | _ => recorder_may h o end.
Definition senders (t : nat) (h : list (es_op * es_res)) (o : es_op) : Prop :=
  match t with O => recorder_may h o | _ => sender_may o end.
(** One that records and one that sends and asks how many bytes are in use. *)
Definition one_each_sized (t : nat) (h : list (es_op * es_res)) (o : es_op) : Prop :=
  match t with O => recorder_may h o | S O => sender_may o \/ o = EUsed | _ => False end.
