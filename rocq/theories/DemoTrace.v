(** Model of the command `test_trace` of the demo command line (components/demo/src/memfault_demo_cli_trace_event.c:13-22)
    with the macro MEMFAULT_TRACE_EVENT_WITH_LOG (components/include/memfault/core/trace_event.h:88-109), over the
    models of the macros' arguments (MacroArgs) and of the captures (TraceEvent).

    Simplified: the printf format is applied here: %s gives the string, %d a digit (argc is 0 or 1 there). *)
From Coq Require Import String.
From Verif Require Import Base CompactLog MacroArgs TraceEvent.
Open Scope string_scope. Open Scope list_scope. Open Scope Z_scope.

(** components/include/memfault/core/trace_reason_user.h:42, :71-85: an enum, numbered from 0; [user]: the names in
    the user's file ([None]: MEMFAULT_DISABLE_USER_TRACE_REASONS). *)
Definition enum_names (user : option (list (list Z))) : list (list Z) :=
  [str "Unknown"] ++ (match user with Some l => l | None => [] end) ++ [str "MemfaultCli_Test"; str "NumReasons"].
Fixpoint enum_value (names : list (list Z)) (next : Z) (name : list Z) : option Z :=
  match names with
  | [] => None
  | x :: r => if list_eq_dec Z.eq_dec x name then Some next else enum_value r (next + 1) name
  end.
Definition trace_reason (user : option (list (list Z))) (name : list Z) : option Z := enum_value (enum_names user) 0 name.

(** [argv] with the command's name first; [id_n], [id_s]: where the two formats are in the section of formats *)
Definition trace_cmd (cfg : tcfg) (reason pc lr id_n id_s : Z) (argv : list (list Z)) : option tcap :=
  let argc := zlen argv in
  if argc <? 2 then                                                                       (* :16-17 *)
    if tc_compact cfg
    then do fmt <- log_fmt promo_c [mk_carg (TInt 4) None]; Some (CCompact reason lr id_n fmt [AInt argc])
    else Some (CLog reason pc lr (Some (str "Example Trace Event. Num Args " ++ [48 + argc])))
  else
    do a <- nth_error argv 1;                                                             (* :18-19 *)
    if tc_compact cfg
    then do fmt <- log_fmt promo_c [mk_carg (TCharPtr MacroArgs.CPlain false) None]; Some (CCompact reason lr id_s fmt [AStr (Some a)])
    else Some (CLog reason pc lr (Some a)).
