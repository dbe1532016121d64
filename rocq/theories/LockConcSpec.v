(** Independent specification: as linearizability, with what the sequential object holds in the end. *)
From Verif Require Import Base CircularBuffer CircularBufferProofs Conc ConcSpec LogSpec MetricsSpec Log Metrics.

Definition linearizes {V Op R} (spec : V -> Op -> option (R * V)) (v : V) (h : list (event Op R)) (v' : V) : Prop :=
  exists a, flat_map seen a = h /\ (forall t, calls t (filter (by_thread t) a)) /\ sequential spec v a v'.
(** All calls begun are among these. *)
Definition starts_only {Op} (ok : Op -> Prop) (sched : list (item Op)) : Prop :=
  Forall (fun i => match i with Start _ o => ok o | Step _ => True end) sched.

(** The calls of the log made by tasks: saves, reads and counts. *)
Definition log_call (ts_enabled : bool) (o : log_op) : Prop :=
  match o with LSave _ _ _ _ => log_op_ok ts_enabled o | LRead | LCount => True | _ => False end.

(** The logs in the buffer not sent yet: in its bytes, those whose header does not say so. *)
Definition unsent_in (cap : Z) (s : lg) : option Z :=
  do l <- parse_logs (Z.to_nat cap) (content (lg_cb s));
  Some (zlen (filter (fun e => negb (snd (snd e))) l)).
(** Nobody is in a call. *)
Definition quiet {S Op R} (m : mach S Op R) : Prop := m_owner m = None /\ forall t, m_thread m t = None.
(** With nobody in a call, an upload under way is of logs that are there. *)
Definition upload_there (cap : Z) (m : mach lg log_op log_res) : Prop :=
  quiet m -> lg_trig (m_shared m) = true -> exists n, unsent_in cap (m_shared m) = Some n /\ lg_num (m_shared m) <= n.
(** Who may call what: only task 0 triggers uploads and marks them as sent, the others save, read and count. *)
Definition one_uploader (tse : bool) (i : item log_op) : Prop :=
  match i with
  | Start t o => match o with LTrigger _ | LMarkSent => t = 0%nat | _ => log_call tse o end
  | Step _ => True
  end.
(** Only task 0 marks an upload as sent; nobody saves a log any more. *)
Definition no_more_logs (i : item log_op) : Prop :=
  match i with
  | Start t o => match o with LTrigger _ | LRead | LCount => True | LMarkSent => t = 0%nat | _ => False end
  | Step _ => True
  end.
