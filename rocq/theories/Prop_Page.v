(** C10, C11, C12, C29: the pages of a realm.  The vocabulary is in Spec.v,
    SpecStep.v and SpecRec.v. *)
From Coq Require Import NArith ZArith List Bool.
From Verif Require Import Bits S2tte State Granule RecFields Measure RmiRtt RmiRealm Psci RmiRec Gic Esr Rsi RecRun Arch Mmu Machine
  Spec SpecStep SpecExit SpecRec Demo Demo2 Demo3 Own Step Step2 Step3 Step4 Step6 Step8 Step9.
Import ListNotations.
Local Open Scope N_scope.

(* ------------------------------------------------------------------ *)
(** * C10 *)

(** A step does to a page of a realm that is not new nothing, or it adds or withdraws memory, or
    it makes the page DESTROYED, or it makes the change of RIPAS that a REC of the realm waits for. *)
Theorem C10_pages : forall c h m o m' rp, next c h m o m' rp -> forall a d d' ipa, realm m a d -> realm m' a d' -> rd_state d <> REALM_NEW ->
  protected (rd_ctx d) ipa ->
  let p := page_at (m_gr m) (rd_ctx d) ipa in let p' := page_at (m_gr m') (rd_ctx d) ipa in
  p' = p \/
  (exists q data, p = PUnassigned q /\ p' = PAssigned q data /\ exists map r, block map 3 ipa = true /\ done o rp (KDataCreateUnknown a data map) r) \/
  (exists q pa, p = PAssigned q pa /\ q <> EMPTY /\ p' = PUnassigned DESTROYED /\ exists map r, block map 3 ipa = true /\ done o rp (KDataDestroy a map) r) \/
  (exists pa, p = PAssigned EMPTY pa /\ p' = PUnassigned EMPTY /\ exists map r, block map 3 ipa = true /\ done o rp (KDataDestroy a map) r) \/
  (p' = PUnassigned DESTROYED /\ exists map ul r, block map (sgn64 ul - 1) ipa = true /\ done o rp (KRttDestroy a map ul) r) \/
  (exists rq q, asked m o rp a ipa rq /\ new_ripas rq = Some q /\ p' = with_ripas p q /\ (page_ripas p = Some DESTROYED -> sr_change_destroyed rq = 1)).
Proof. exact pages_step. Qed.

(** So the RIPAS of a page changes only to DESTROYED or as the realm asked. *)
Theorem C10_ripas : forall c h m o m' rp, next c h m o m' rp -> forall a d d' ipa, realm m a d -> realm m' a d' -> rd_state d <> REALM_NEW ->
  protected (rd_ctx d) ipa ->
  let s := page_ripas (page_at (m_gr m) (rd_ctx d) ipa) in let s' := page_ripas (page_at (m_gr m') (rd_ctx d) ipa) in
  s' = s \/ s' = Some DESTROYED \/
  exists rq, asked m o rp a ipa rq /\ s' = new_ripas rq /\ (s = Some DESTROYED -> sr_change_destroyed rq = 1).
Proof.
  intros c h m o m' rp H a d d' ipa R R' NN PR s s'. pose proof H as (RCH & _).
  destruct (page_half _ _ _ _ _ _ RCH R PR) as [q0 HP]. subst s s'.
  destruct (pages_step _ _ _ _ _ _ H _ _ _ ipa R R' NN PR) as [E|[(q & data & E & E' & _)|[(q & pa0 & _ & _ & E & _)|[(pa0 & E & E' & _)|[(E & _)|(rq & q & AS & NR & E & X)]]]]].
  - left. rewrite E. reflexivity.
  - left. rewrite E, E'. reflexivity.
  - right. left. rewrite E. reflexivity.
  - left. rewrite E, E'. reflexivity.
  - right. left. rewrite E. reflexivity.
  - right. right. exists rq. split; [exact AS|]. split; [|exact X]. rewrite E, NR. clear -HP.
    destruct (page_at (m_gr m) (rd_ctx d) ipa); try discriminate HP; reflexivity.
Qed.

(** The request itself is made by the REC alone, with its registers; the host only moves its
    start forward, by what it has done, or ends it when it enters the REC. *)
Theorem C10_request : forall c h m o m' rp, next c h m o m' rp -> forall a r r', rec_is m a r -> rec_is m' a r' ->
  let q := r_set_ripas r in let q' := r_set_ripas r' in
  same_req q' q \/
  (rsi_call m o a r RSI_SET /\ sr_base q = sr_top q /\ sr_base q' = r_regs r 1 /\ sr_addr q' = r_regs r 1 /\ sr_top q' = r_regs r 2 /\
     sr_ripas q' = r_regs r 3 mod 2 ^ 32 /\ sr_change_destroyed q' = r_regs r 4 mod 2 ^ 32 /\ sr_ripas q' <= 1 /\ r_regs r 1 < r_regs r 2) \/
  (exists base top x, done o rp (KRttSetRipas (r_g_rd r) a base top) x /\ base = sr_addr q /\ sr_base q' = sr_base q /\ sr_top q' = sr_top q /\
     sr_addr q' = x1 x /\ sr_ripas q' = sr_ripas q /\ sr_change_destroyed q' = sr_change_destroyed q) \/
  (exists p ra e fi tm, o = OEnter p a ra (Some e) fi tm /\ sr_base q' = sr_top q').
Proof. exact request_step. Qed.

(** The realm asks for EMPTY on the first three pages; the host changes them, and it destroys the page at 4096. *)
Definition d_ask : list op := d_base ++ d_smc 0xC4000197 0 12288 0.
Definition d_set : op := OCmd 1 (KRttSetRipas (gr 0) (gr 14) 0 12288).
Definition d_gone : op := OCmd 1 (KDataDestroy (gr 0) 4096).
Example C10_example :
  (exists m' rp rq d d', next dcfg dhw (after d_ask) d_set m' rp /\ realm (after d_ask) (gr 0) d /\ realm m' (gr 0) d' /\ asked (after d_ask) d_set rp (gr 0) 4096 rq /\
     page_at (m_gr (after d_ask)) (rd_ctx d) 4096 = PAssigned RAM (gr 10) /\ page_at (m_gr m') (rd_ctx d) 4096 = PAssigned EMPTY (gr 10)) /\
  (exists m' rp d, next dcfg dhw (after d_base) d_gone m' rp /\ realm (after d_base) (gr 0) d /\ rd_state d <> REALM_NEW /\ protected (rd_ctx d) 4096 /\
     page_at (m_gr (after d_base)) (rd_ctx d) 4096 = PAssigned RAM (gr 10) /\ page_at (m_gr m') (rd_ctx d) 4096 = PUnassigned DESTROYED).
Proof.
  split.
  - assert (E : staged d_ask d_set (fun m m' rp => let x := rd_ctx (rd_of m (gr 0)) in let rc := rec_of m (gr 14) in
      succ rp && is_rd_b m (gr 0) && is_rd_b m' (gr 0) && is_rec_b m (gr 14) && (r_g_rd rc =? gr 0) && (0 =? sr_addr (r_set_ripas rc)) &&
      (4096 <? x1 (res_of rp)) && (x1 (res_of rp) <=? sr_top (r_set_ripas rc)) &&
      page_eqb (page_at (m_gr m) x 4096) (PAssigned RAM (gr 10)) && page_eqb (page_at (m_gr m') x 4096) (PAssigned EMPTY (gr 10))) = true) by (vm_compute; reflexivity).
    apply stage in E. destruct E as (m' & rp & NX & E). revert NX E. generalize (after d_ask) as m. intros m NX E. cbv zeta in E. facts E.
    exists m', rp, (r_set_ripas (rec_of m (gr 14))), (rd_of m (gr 0)), (rd_of m' (gr 0)). split; [exact NX|]. split; [apply realm_b; assumption|]. split; [apply realm_b; assumption|].
    split; [|split; apply page_eq; assumption]. exists (gr 14), (rec_of m (gr 14)), 0, 12288, (res_of rp). split; [apply succ_done; assumption|].
    split; [apply rec_b; assumption|]. split; [assumption|]. split; [reflexivity|]. split; [assumption|]. rewrite <- N.ltb_lt, <- !N.leb_le. auto.
  - assert (E : staged d_base d_gone (fun m m' rp => let d := rd_of m (gr 0) in
      is_rd_b m (gr 0) && negb (rd_state d =? REALM_NEW) && (4096 <? 2 ^ (ipa_bits (rd_ctx d) - 1)) &&
      page_eqb (page_at (m_gr m) (rd_ctx d) 4096) (PAssigned RAM (gr 10)) && page_eqb (page_at (m_gr m') (rd_ctx d) 4096) (PUnassigned DESTROYED)) = true) by (vm_compute; reflexivity).
    apply stage in E. destruct E as (m' & rp & NX & E). revert NX E. generalize (after d_base) as m. intros m NX E. cbv zeta in E. facts E.
    exists m', rp, (rd_of m (gr 0)). split; [exact NX|]. split; [apply realm_b; assumption|]. split; [apply N.eqb_neq; assumption|].
    split; [apply N.ltb_lt; assumption|]. split; apply page_eq; assumption.
Qed.

(* ------------------------------------------------------------------ *)
(** * C11 *)

(** When no REC of the realm acts, what the realm reads at a protected address after a step is what it read
    before, or zero where there was no memory, or memory that it had at this address and that comes
    back because it asked for the RIPAS RAM, or the reply to its host call. *)
Theorem C11_words : forall c h m o m' rp, next c h m o m' rp -> forall a d d' ipa f', realm m a d -> realm m' a d' -> rd_state d <> REALM_NEW ->
  protected (rd_ctx d) ipa -> (forall rec r, acts m o rec r -> r_g_rd r <> a) ->
  page_words (m_gr m') (page_at (m_gr m') (rd_ctx d) ipa) = Some f' ->
  page_words (m_gr m) (page_at (m_gr m) (rd_ctx d) ipa) = Some f' \/
  (page_at (m_gr m) (rd_ctx d) ipa = PUnassigned RAM /\ forall i, f' i = 0) \/
  (exists q, asked m o rp a ipa q /\ new_ripas q = Some RAM /\
     exists o1 pa, page_at (m_gr m) (rd_ctx d) ipa = PAssigned o1 pa /\ o1 <> RAM /\ g_mem (m_gr m pa) = CW f') \/
  (exists ipa1 g f, host_call_reply m o a ipa1 g /\ ipa1 / 4096 = ipa / 4096 /\
     page_words (m_gr m) (page_at (m_gr m) (rd_ctx d) ipa) = Some f /\ forall i, f' i = host_reply f (ipa1 mod 4096) g i).
Proof. exact words_after. Qed.

(** A page that the realm can read stays, or is withdrawn and DESTROYED, or the realm
    gave it up. *)
Theorem C11_withdrawn : forall c h m o m' rp, next c h m o m' rp -> forall a d d' ipa f, realm m a d -> realm m' a d' -> rd_state d <> REALM_NEW ->
  protected (rd_ctx d) ipa -> page_words (m_gr m) (page_at (m_gr m) (rd_ctx d) ipa) = Some f ->
  page_at (m_gr m') (rd_ctx d) ipa = page_at (m_gr m) (rd_ctx d) ipa \/ page_at (m_gr m') (rd_ctx d) ipa = PUnassigned DESTROYED \/
  (exists q, asked m o rp a ipa q /\ new_ripas q = Some EMPTY).
Proof. exact words_lost. Qed.

(** The memory of realms, also of new ones and where it cannot be accessed, is changed only by the
    realm that has it and by replies to its host calls. *)
Theorem C11_memory : forall c h m o m' rp, next c h m o m' rp -> forall z, g_state (m_gr m z) = DATA -> g_state (m_gr m' z) = DATA ->
  g_mem (m_gr m' z) = g_mem (m_gr m z) \/
  exists a d ipa q, realm m a d /\ protected (rd_ctx d) ipa /\ page_at (m_gr m) (rd_ctx d) ipa = PAssigned q z /\
    ((exists rec r, acts m o rec r /\ r_g_rd r = a) \/
     (q = RAM /\ exists g f f', host_call_reply m o a ipa g /\ g_mem (m_gr m z) = CW f /\ g_mem (m_gr m' z) = CW f' /\
        forall i, f' i = host_reply f (ipa mod 4096) g i)).
Proof. exact data_step. Qed.

(** The host gives a fresh page for 8192, which was used by nobody before; further it replies to a host call
    whose structure is at 256, and it withdraws page 4096. *)
Definition d_fresh : op := OCmd 1 (KDataCreateUnknown (gr 0) (gr 70) 8192).
Definition d_hc : list op := d_base ++ d_smc 0xC4000199 256 0 0.
Definition d_reply : op := OEnter 0 (gr 14) (gr 102) (Some (mkEnter 0 (fun i => 1000 + i) 0 (fun _ => 0))) dfin no_tm.
Definition word (m : mstate) (ipa i : N) : option N := option_map (fun f => f i) (page_words (m_gr m) (page_at (m_gr m) (rd_ctx (rd_of m (gr 0))) ipa)).
Fixpoint same_words (l l' : list (option N)) : bool :=
  match l, l' with [], [] => true | Some a :: l, Some b :: l' => (a =? b) && same_words l l' | _, _ => false end.
Lemma words_eq : forall l l', same_words l l' = true -> l = l'.
Proof.
  induction l as [|[a|] l IH]; intros [|[b|] l'] E; try discriminate E; [reflexivity|]. apply andb_prop in E. destruct E as [E1 E2].
  apply N.eqb_eq in E1. rewrite E1, (IH l' E2). reflexivity.
Qed.
Example C11_example :
  (exists m' rp d, next dcfg dhw (after d_base) d_fresh m' rp /\ realm (after d_base) (gr 0) d /\ page_at (m_gr (after d_base)) (rd_ctx d) 8192 = PUnassigned RAM /\
     word m' 8192 5 = Some 0) /\
  (exists m' rp, next dcfg dhw (after d_hc) d_reply m' rp /\ host_call_reply (after d_hc) d_reply (gr 0) 256 (fun i => 1000 + i) /\
     map (word (after d_hc) 0) [1; 32; 33; 40; 63; 64] = Some 4711 :: map (fun i => Some (gr 101 + i)) [32; 33; 40; 63; 64] /\
     map (word m' 0) [1; 32; 33; 40; 63; 64] = [Some 4711; Some (gr 101 + 32); Some 1000; Some 1007; Some 1030; Some (gr 101 + 64)]) /\
  (exists m' rp v, next dcfg dhw (after d_base) d_gone m' rp /\ word (after d_base) 4096 5 = Some v).
Proof.
  split; [|split].
  - assert (E : staged d_base d_fresh (fun m m' rp => is_rd_b m (gr 0) && page_eqb (page_at (m_gr m) (rd_ctx (rd_of m (gr 0))) 8192) (PUnassigned RAM) &&
      same_words [word m' 8192 5] [Some 0]) = true) by (vm_compute; reflexivity).
    apply stage in E. destruct E as (m' & rp & NX & E). revert NX E. generalize (after d_base) as m. intros m NX E. facts E.
    exists m', rp, (rd_of m (gr 0)). split; [exact NX|]. split; [apply realm_b; assumption|]. split; [apply page_eq; assumption|].
    match goal with E : same_words _ _ = true |- _ => apply words_eq in E; congruence end.
  - assert (E : staged d_hc d_reply (fun m m' rp => is_rec_b m (gr 14) && (r_g_rd (rec_of m (gr 14)) =? gr 0) && r_host_call (rec_of m (gr 14)) &&
      (256 =? r_regs (rec_of m (gr 14)) 1) &&
      same_words (map (word m 0) [1; 32; 33; 40; 63; 64]) (Some 4711 :: map (fun i => Some (gr 101 + i)) [32; 33; 40; 63; 64]) &&
      same_words (map (word m' 0) [1; 32; 33; 40; 63; 64]) [Some 4711; Some (gr 101 + 32); Some 1000; Some 1007; Some 1030; Some (gr 101 + 64)]) = true) by (vm_compute; reflexivity).
    apply stage in E. destruct E as (m' & rp & NX & E). revert NX E. generalize (after d_hc) as m. intros m NX E. facts E.
    exists m', rp. split; [exact NX|]. split; [|split; apply words_eq; assumption].
    do 6 eexists. exists (rec_of m (gr 14)). split; [reflexivity|]. split; [apply rec_b; assumption|]. auto.
  - assert (E : staged d_base d_gone (fun m m' rp => match word m 4096 5 with Some _ => true | None => false end) = true) by (vm_compute; reflexivity).
    apply stage in E. destruct E as (m' & rp & NX & E). revert NX E. generalize (after d_base) as m. intros m NX E.
    destruct (word m 4096 5) as [v|] eqn:W; [|discriminate E]. exists m', rp, v. auto.
Qed.

(* ------------------------------------------------------------------ *)
(** * C12 *)

(** RTT_CREATE and RTT_FOLD change no page of any realm and no translation. *)
Theorem C12_invisible : forall c h m o m' rp k r, next c h m o m' rp -> done o rp k r -> match k with KRttCreate _ _ _ _ | KRttFold _ _ _ => True | _ => False end ->
  forall a d, realm m a d -> exists d', realm m' a d' /\ rd_ctx d' = rd_ctx d /\ forall ipa,
    page_at (m_gr m') (rd_ctx d) ipa = page_at (m_gr m) (rd_ctx d) ipa /\
    outcome (enable_lpa2 (rd_ctx d)) (translate (m_gr m') (rd_ctx d) ipa) = outcome (enable_lpa2 (rd_ctx d)) (translate (m_gr m) (rd_ctx d) ipa).
Proof. exact fold_unfold. Qed.

(** The host unfolds the block that maps memory of the host, and folds it again. *)
Definition d_unfold : op := OCmd 1 (KRttCreate (gr 0) (gr 70) (2 ^ 32) 3).
Definition d_fold : op := OCmd 1 (KRttFold (gr 0) (2 ^ 32) 3).
Example C12_example :
  (exists m' rp r d v, next dcfg dhw (after d_base) d_unfold m' rp /\ done d_unfold rp (KRttCreate (gr 0) (gr 70) (2 ^ 32) 3) r /\ realm (after d_base) (gr 0) d /\
     outcome false (translate (m_gr m') (rd_ctx d) (2 ^ 32 + 2 ^ 20)) = Some (2 ^ 30 + 2 ^ 20, true, true, v)) /\
  (exists m' rp r, next dcfg dhw (after (d_base ++ [d_unfold])) d_fold m' rp /\ done d_fold rp (KRttFold (gr 0) (2 ^ 32) 3) r).
Proof.
  split.
  - assert (E : staged d_base d_unfold (fun m m' rp => succ rp && is_rd_b m (gr 0) &&
      match outcome false (translate (m_gr m') (rd_ctx (rd_of m (gr 0))) (2 ^ 32 + 2 ^ 20)) with Some (a, true, true, _) => a =? 2 ^ 30 + 2 ^ 20 | _ => false end) = true)
      by (vm_compute; reflexivity).
    apply stage in E. destruct E as (m' & rp & NX & E). revert NX E. generalize (after d_base) as m. intros m NX E. facts E.
    destruct (outcome false _) as [[[[a []] []] v]|] eqn:O; try discriminate. exists m', rp, (res_of rp), (rd_of m (gr 0)), v.
    split; [exact NX|]. split; [apply succ_done; assumption|]. split; [apply realm_b; assumption|]. rewrite O. do 4 f_equal. apply N.eqb_eq. assumption.
  - assert (E : staged (d_base ++ [d_unfold]) d_fold (fun m m' rp => succ rp) = true) by (vm_compute; reflexivity).
    apply stage in E. destruct E as (m' & rp & NX & E). exists m', rp, (res_of rp). split; [exact NX|]. apply succ_done. exact E.
Qed.

(* ------------------------------------------------------------------ *)
(** * C29 *)

(** What every command makes of every page of every realm: [page_then] *)
Theorem C29_pages : forall c h m o m' rp, next c h m o m' rp -> forall a d d', realm m a d -> realm m' a d' ->
  rd_ctx d' = rd_ctx d /\ forall ipa, ipa < 2 ^ ipa_bits (rd_ctx d) ->
    page_at (m_gr m') (rd_ctx d) ipa = page_then m o rp a (rd_ctx d) ipa (page_at (m_gr m) (rd_ctx d) ipa) /\
    forall k r, done o rp k r -> page_before m k r a ipa (page_at (m_gr m) (rd_ctx d) ipa).
Proof. exact page_step. Qed.

(** INIT_RIPAS makes progress and stays in its range *)
Theorem C29_init : forall c h m o m' rp rd base top r, next c h m o m' rp -> done o rp (KRttInitRipas rd base top) r ->
  exists d, realm m rd d /\ rd_state d = REALM_NEW /\ base < x1 r /\ x1 r <= top /\ top <= 2 ^ (ipa_bits (rd_ctx d) - 1) /\ base mod 4096 = 0 /\ x1 r mod 4096 = 0.
Proof. exact init_ripas_facts. Qed.

(** and so does SET_RIPAS, which starts where the last one stopped. *)
Theorem C29_set : forall c h m o m' rp rd rec base top r, next c h m o m' rp -> done o rp (KRttSetRipas rd rec base top) r ->
  exists d rc rc', realm m rd d /\ rec_is m rec rc /\ rec_is m' rec rc' /\ r_g_rd rc = rd /\ ~ (exists p, executes m p rec) /\
    let q := r_set_ripas rc in sr_addr q = base /\ base < x1 r /\ x1 r <= top /\ top <= sr_top q /\
    rc' = set_req rc (mkReq (sr_base q) (sr_top q) (x1 r) (sr_ripas q) (sr_change_destroyed q) (sr_response q)).
Proof. exact set_ripas_facts. Qed.

(** When the REC runs again it is told in x1 how far the change got, and in x2 whether the rest was rejected *)
Theorem C29_told : forall c h m p a ra e fi tm m' r r', next c h m (OEnter p a ra (Some e) fi tm) m' Entered -> rec_is m a r -> rec_is m' a r' ->
  let q := r_set_ripas r in sr_base q <> sr_top q ->
  r_regs r' 0 = 0 /\ r_regs r' 1 = sr_addr q /\
  (r_regs r' 2 = if (sr_ripas q =? 1) && negb (sr_addr q =? sr_top q) && N.testbit (en_flags e) 4 then 1 else 0) /\
  sr_base (r_set_ripas r') = sr_top (r_set_ripas r').
Proof.
  intros c h m p a ra e fi tm m' r r' H R R' q NQ. destruct (told_step _ _ _ _ _ _ _ _ _ _ _ _ H R R') as (A & B & _).
  destruct (B NQ) as (B0 & B1 & B2). auto.
Qed.

(** The host changes one page, and the REC is told so. *)
Definition d_init : op := OCmd 1 (KRttInitRipas (gr 1) (2 ^ 21) (2 ^ 23)).
Definition d_set1 : op := OCmd 1 (KRttSetRipas (gr 0) (gr 14) 0 4096).
Example C29_example :
  (exists m' rp r, next dcfg dhw (after d_base) d_init m' rp /\ done d_init rp (KRttInitRipas (gr 1) (2 ^ 21) (2 ^ 23)) r /\ x1 r = 2 ^ 23) /\
  (exists m' rp r, next dcfg dhw (after d_ask) d_set1 m' rp /\ done d_set1 rp (KRttSetRipas (gr 0) (gr 14) 0 4096) r /\ x1 r = 4096) /\
  (exists m' r r', next dcfg dhw (after (d_ask ++ [d_set1])) d_enter m' Entered /\ rec_is (after (d_ask ++ [d_set1])) (gr 14) r /\ rec_is m' (gr 14) r' /\
     sr_base (r_set_ripas r) = 0 /\ sr_top (r_set_ripas r) = 12288 /\ r_regs r' 1 = 4096).
Proof.
  split; [|split].
  - assert (E : staged d_base d_init (fun m m' rp => succ rp && (x1 (res_of rp) =? 2 ^ 23)) = true) by (vm_compute; reflexivity).
    apply stage in E. destruct E as (m' & rp & NX & E). facts E. exists m', rp, (res_of rp). split; [exact NX|]. split; [apply succ_done|]; assumption.
  - assert (E : staged d_ask d_set1 (fun m m' rp => succ rp && (x1 (res_of rp) =? 4096)) = true) by (vm_compute; reflexivity).
    apply stage in E. destruct E as (m' & rp & NX & E). facts E. exists m', rp, (res_of rp). split; [exact NX|]. split; [apply succ_done|]; assumption.
  - assert (E : staged (d_ask ++ [d_set1]) d_enter (fun m m' rp => let q := r_set_ripas (rec_of m (gr 14)) in
      entered rp && is_rec_b m (gr 14) && is_rec_b m' (gr 14) && (sr_base q =? 0) && (sr_top q =? 12288) && (r_regs (rec_of m' (gr 14)) 1 =? 4096)) = true) by (vm_compute; reflexivity).
    apply stage in E. destruct E as (m' & rp & NX & E). revert NX E. generalize (after (d_ask ++ [d_set1])) as m. intros m NX E. cbv zeta in E. facts E.
    rewrite (entered_reply rp ltac:(assumption)) in NX. exists m', (rec_of m (gr 14)), (rec_of m' (gr 14)).
    repeat (split; try assumption; try (apply rec_b; assumption)).
Qed.

Definition page_theorems := (@C10_pages, @C10_ripas, @C10_request, @C11_words, @C11_withdrawn, @C11_memory, @C12_invisible,
  @C29_pages, @C29_init, @C29_set, @C29_told).
Print Assumptions page_theorems.
