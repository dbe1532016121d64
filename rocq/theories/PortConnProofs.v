From Verif Require Import Base PortConn PortConnSpec.

Lemma replay_app a : forall h b, replay h (a ++ b) = match replay h a with None => None | Some h => replay h b end.
Proof. induction a as [|e a IH]; intros h b; cbn [replay app]; [reflexivity|]. destruct (does h e); [apply IH|reflexivity]. Qed.

Definition all_ctx : list ctx := [CEntropy; CCert; CDrbg; CConf; CSsl].
Definition socks (fd : Z) : list Z := if fd =? -1 then [] else [fd].
Definition state (active : bool) (fd n : Z) : holds := if active then mk_holds all_ctx (socks fd) n else mk_holds [] [] n.

Lemma teardown_ok fd n : replay (mk_holds all_ctx (socks fd) n) (teardown fd) = Some (state false 0 n).
Proof.
  unfold teardown, net_free, socks. destruct (Z.eqb_spec fd (-1)) as [E|E]; [reflexivity|]. cbn [app replay does existsb h_socks h_ctx h_addrs]. rewrite Z.eqb_refl. cbn. rewrite Z.eqb_refl. reflexivity.
Qed.
Lemma m_step_ok active fd n o : m_lawful o -> 0 <= n ->
  let '(x, active', fd', l) := m_step active fd o in
  exists n', replay (state active fd n) l = Some (state active' fd' n') /\ n <= n' <= n + (if no_socket o then 1 else 0).
Proof.
  intros L Hn. destruct o as [a|]; cbn [m_step].
  - destruct L as [L1 L2]. unfold m_create. destruct active; [exists n; split; [reflexivity|cbn; destruct (m_fd a <? 0); lia]|].
    assert (T : forall f k l, replay (state false fd n) l = Some (mk_holds all_ctx (socks f) k) -> replay (state false fd n) (l ++ teardown f) = Some (state false (-1) k)).
    { intros f k l H. rewrite replay_app, H, teardown_ok. reflexivity. }
    set (i := [Init CSsl; Init CConf; Init CDrbg; Init CCert; Init CEntropy]).
    assert (I0 : replay (state false fd n) i = Some (mk_holds all_ctx (socks (-1)) n)) by reflexivity.
    cbn [no_socket]. destruct (negb (m_seed a =? 0)); [exists n; split; [exact (T _ _ _ I0)|destruct (m_fd a <? 0); lia]|].
    destruct (negb (m_parse a =? 0)); [exists n; split; [exact (T _ _ _ I0)|destruct (m_fd a <? 0); lia]|].
    assert (N : let '(_, f, l) := net_connect a (-1) in exists n', replay (state false fd n) (i ++ l) = Some (mk_holds all_ctx (socks f) n') /\ n <= n' <= n + (if m_fd a <? 0 then 1 else 0)).
    { unfold net_connect. destruct (negb (m_gai a =? 0) || negb (m_list a)) eqn:E.
      - assert (m_list a = false) as ->. { destruct (m_list a); [|reflexivity]. destruct (Z.eqb_spec (m_gai a) 0); [discriminate E|]. now apply L1. }
        exists n. rewrite app_nil_r. split; [exact I0|destruct (m_fd a <? 0); lia].
      - destruct (Z.ltb_spec (m_fd a) 0) as [F|F].
        + exists (n + 1). rewrite replay_app, I0. cbn [replay does h_ctx h_socks h_addrs]. replace (m_fd a) with (-1) by lia. split; [reflexivity|lia].
        + exists n. rewrite replay_app, I0. change (socks (-1)) with (@nil Z). cbn [replay does h_ctx h_socks h_addrs existsb].
          replace (n + 1 <? 1) with false by lia. unfold socks. replace (m_fd a =? -1) with false by lia. replace (n + 1 - 1) with n by lia. split; [reflexivity|lia]. }
    destruct (net_connect a (-1)) as [[rv f] l]. destruct N as (n' & N & Ln).
    destruct (negb (m_defaults a =? 0)); [exists n'; split; [exact (T _ _ _ N)|exact Ln]|].
    destruct (negb (m_name a =? 0)); [exists n'; split; [exact (T _ _ _ N)|exact Ln]|].
    destruct (negb (handshake (m_shake a) =? 0)); [exists n'; split; [exact (T _ _ _ N)|exact Ln]|].
    exists n'. split; [exact N|exact Ln].
  - unfold m_destroy. destruct active; cbn [negb]; exists n; (split; [|cbn; lia]); [|reflexivity]. unfold state at 1. rewrite teardown_ok. reflexivity.
Qed.

(** The number of operations for which [f] holds *)
Definition count {X} (f : X -> bool) (l : list X) : Z := zlen (filter f l).
Lemma count_cons {X} (f : X -> bool) x l : count f (x :: l) = (if f x then 1 else 0) + count f l.
Proof. unfold count. cbn [filter]. destruct (f x); [rewrite zlen_cons; lia|lia]. Qed.

Lemma m_run_ok ops : forall active fd n, Forall m_lawful ops -> 0 <= n ->
  let '(xs, active', fd', l) := m_run active fd ops in
  exists n', replay (state active fd n) l = Some (state active' fd' n') /\ n <= n' <= n + count no_socket ops.
Proof.
  induction ops as [|o r IH]; intros active fd n F Hn; cbn [m_run].
  - exists n. split; [reflexivity|unfold count, zlen; cbn [filter length]; lia].
  - pose proof (m_step_ok active fd n o (Forall_inv F) Hn) as S1. destruct (m_step active fd o) as [[[x a1] f1] l1]. destruct S1 as (n1 & R1 & L1).
    pose proof (IH a1 f1 n1 (Forall_inv_tail F) ltac:(lia)) as S2. destruct (m_run a1 f1 r) as [[[xs a2] f2] l2]. destruct S2 as (n2 & R2 & L2).
    exists n2. rewrite replay_app, R1, R2, count_cons. split; [reflexivity|lia].
Qed.
Theorem m_balanced ops fd0 : Forall m_lawful ops ->
  let '(xs, active, fd, l) := m_run false fd0 ops in
  exists h, replay holds_nothing l = Some h /\ 0 <= h_addrs h <= count no_socket ops /\
    (if active then (forall c, In c (h_ctx h)) /\ h_socks h = (if fd =? -1 then [] else [fd]) else h_ctx h = [] /\ h_socks h = []).
Proof.
  intros F. pose proof (m_run_ok ops false fd0 0 F ltac:(lia)) as S. destruct (m_run false fd0 ops) as [[[xs a] f] l]. destruct S as (n & R & L).
  exists (state a f n). split; [exact R|]. destruct a; cbn; (split; [lia|]); [split; [|reflexivity]|split; reflexivity]. intros []; cbn; auto 6.
Qed.

(* ------------------------------------------------------------ PSoC 6 *)
Definition pinv (c : p_cl) (lost : Z) : Prop :=
  NoDup (pl_open c) /\ (forall h, In h (pl_open c) -> h < pl_next c) /\ zlen (pl_open c) = lost + (if pl_active c then 1 else 0) /\
  (pl_active c = true -> In (pl_handle c) (pl_open c)).
Lemma delete_len h l : NoDup l -> In h l -> zlen (sock_delete h l) = zlen l - 1.
Proof.
  intros N I. induction N as [|x l Nx N IH]; [destruct I|]. cbn [sock_delete filter]. destruct (Z.eqb_spec x h) as [E|E]; cbn [negb].
  - subst x. rewrite zlen_cons. fold (sock_delete h l). replace (sock_delete h l) with l; [lia|]. clear - Nx. induction l as [|y l IH]; [reflexivity|]. cbn [sock_delete filter].
    destruct (Z.eqb_spec y h) as [E|E]; [exfalso; apply Nx; now left|]. cbn [negb]. f_equal. apply IH. intros X. apply Nx. now right.
  - fold (sock_delete h l). rewrite !zlen_cons, IH; [lia|]. destruct I as [X|X]; [contradiction|exact X].
Qed.
Lemma p_teardown_ok c lost : pinv c lost -> pl_active c = true -> pinv (p_teardown c) lost.
Proof.
  intros (N & Lt & Ln & Ac) X. unfold p_teardown, pinv. cbn [pl_open pl_next pl_active pl_handle]. split; [apply NoDup_filter; exact N|].
  split; [intros h H; apply filter_In in H; now apply Lt|]. split; [|discriminate]. rewrite X in Ln. rewrite delete_len; auto; lia.
Qed.
Lemma p_step_ok c lost o : pinv c lost -> exists lost', pinv (p_step c o) lost' /\ lost <= lost' <= lost + (if half_open o then 1 else 0).
Proof.
  intros V. destruct o as [a| |]; cbn [p_step half_open].
  - unfold p_create. destruct (pl_active c) eqn:Ea; [exists lost; split; [exact V|destruct (p_sock a && _); lia]|]. destruct V as (N & Lt & Ln & Ac). rewrite Ea in *.
    destruct (p_dns a); cbn [negb]; [|exists lost; cbn [snd]; split; [repeat split; cbn; auto; discriminate|destruct (p_sock a && _); lia]].
    destruct (p_sock a); cbn [negb]; [|exists lost; cbn [snd andb]; split; [repeat split; cbn; auto; discriminate|lia]].
    assert (N' : NoDup (pl_next c :: pl_open c)) by (constructor; [intros X; specialize (Lt _ X); lia|exact N]).
    assert (Lt' : forall h, In h (pl_next c :: pl_open c) -> h < pl_next c + 1) by (intros h [<-|X]; [lia|specialize (Lt _ X); lia]).
    destruct (p_callback a); cbn [negb andb]; [|exists (lost + 1); cbn [snd]; split; [unfold pinv; cbn [pl_open pl_next pl_active]; rewrite zlen_cons; repeat split; auto; [lia|discriminate]|lia]].
    destruct (p_conn a); cbn [negb andb]; [|exists (lost + 1); cbn [snd]; split; [unfold pinv; cbn [pl_open pl_next pl_active]; rewrite zlen_cons; repeat split; auto; [lia|discriminate]|lia]].
    exists lost. cbn [snd]. split; [|lia]. unfold pinv; cbn [pl_open pl_next pl_active pl_handle]; rewrite zlen_cons; repeat split; auto; [lia|]. intros _. now left.
  - unfold p_destroy. exists lost. split; [|lia]. destruct (pl_active c) eqn:Ea; cbn [negb snd]; [now apply p_teardown_ok|exact V].
  - exists lost. split; [|lia]. destruct (pl_active c) eqn:Ea; [now apply p_teardown_ok|exact V].
Qed.
Lemma p_run_ok ops : forall c lost, pinv c lost -> exists lost', pinv (p_run c ops) lost' /\ lost <= lost' <= lost + count half_open ops.
Proof.
  induction ops as [|o r IH]; intros c lost V; [exists lost; split; [exact V|change (zlen (@nil Z)) with 0; unfold count, zlen; cbn [filter length]; lia]|].
  destruct (p_step_ok c lost o V) as (l1 & V1 & L1). destruct (IH _ l1 V1) as (l2 & V2 & L2). exists l2. split; [exact V2|]. rewrite count_cons. lia.
Qed.
Theorem p_held ops : let c := p_run p_boot ops in exists lost,
  0 <= lost <= count half_open ops /\ zlen (pl_open c) = lost + (if pl_active c then 1 else 0) /\ (pl_active c = true -> In (pl_handle c) (pl_open c)).
Proof.
  destruct (p_run_ok ops p_boot 0) as (l & (_ & _ & H1 & H2) & L); [repeat split; cbn; try constructor; try lia; try discriminate; intros ? []|]. exists l. split; [lia|auto].
Qed.
