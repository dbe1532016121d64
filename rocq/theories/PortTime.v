(** System time of the ports: when memfault_platform_time_get_current gives a time, and which. *)
From Verif Require Import Base.

(** struct tm and struct rtc_time: the fields that are looked at. *)
Record tm := mk_tm { tm_year : Z; tm_mon : Z; tm_mday : Z; tm_hour : Z; tm_min : Z; tm_sec : Z }.

(** ports/zephyr/common/memfault_platform_system_time.c:24-41: an event of the date-time library, [true]:
    obtained (any type but DATE_TIME_NOT_OBTAINED).  Simplification: the logs are left out. *)
Definition dt_event (ready obtained : bool) : bool :=
  if obtained then true else if ready then false else ready.
(** :43-60; [now]: what date_time_now gives, [None] an error.  C division truncates; stored in 64 bits. *)
Definition dt_current (ready : bool) (now : option Z) : option Z :=
  if ready then match now with Some ms => Some (u64 (Z.quot ms 1000)) | None => None end else None.

(** :80-112; [read]: what rtc_get_time says and leaves in the structure on the stack ([:83], the result is
    not looked at), [mktime]: of the C library. *)
Definition rtc_current (mktime : tm -> Z) (read : bool * tm) : option Z :=
  let t := snd read in
  if (tm_year t <? 123) || (200 <? tm_year t) then None                           (* :90-93 *)
  else let now := mktime t in
       if now =? -1 then None else Some (u64 now).                                 (* :98-111 *)

(** ports/esp_idf/memfault/common/memfault_platform_system_time.c:11-39; [gmtime]: of the C library. *)
Definition esp_current (gmtime : Z -> option tm) (now : Z) : option Z :=
  if now =? -1 then None
  else match gmtime now with
       | None => None
       | Some t => if (tm_year t <? 124) || (200 <? tm_year t) then None else Some (u64 now)
       end.

(** examples/freertos/src/memfault/memfault_platform_port.c:88-116 with MEMFAULT_EXAMPLE_USE_REAL_TIME.
    The result of gmtime is used unseen (:95-96): [None] there is a fault. *)
Definition freertos_current (gmtime : Z -> option tm) (now : Z) : option (option Z) :=
  do t <- gmtime now;
  Some (if (tm_year t <? 123) || (200 <? tm_year t) then None else Some (u64 now)).

(** The time as it goes into events (components/core/src/memfault_serializer_helper.c:156-158) and logs
    (components/core/src/memfault_log.c:422, :453): in 32 bits. *)
Definition sent_time (t : Z) : Z := u32 t.
