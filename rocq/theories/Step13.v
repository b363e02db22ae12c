(** The services a realm calls: results and effects in the terms of SpecRsi.v *)
From Coq Require Import NArith ZArith List Bool Lia ZifyBool ZifyN.
From Verif Require Import Bits S2tte S2tteFacts State Granule Wp RecFields Measure RmiRtt RmiRealm Psci RmiRec Gic Esr Rsi RecRun
  Arch ArchFacts Mmu Machine Spec SpecStep SpecExit SpecRec SpecRsi Inv InvTree MmuFacts InvStep InvStep2 InvStep3 Effects Frames CmdLib CmdData CmdRipas
  CmdRec CmdRealm CmdRsi CmdRsi2 CmdRun CmdRun2 CmdAll MInv MStep View StepView Own ExitFacts Step Step2 Step3 Step4 Step5 Step6 Step7 Step8 Step9 Step10 Step11 Step12.
Import ListNotations.
Local Open Scope N_scope.

(* ------------------------------------------------------------------ *)
(** * Bytes *)

Lemma digit : forall low b hi k, low < 2 ^ k -> b < 256 -> (low + (b * 2 ^ k + hi * 2 ^ (k + 8))) / 2 ^ k mod 256 = b.
Proof.
  intros low b hi k L B. assert (P : 2 ^ k <> 0) by (apply N.pow_nonzero; discriminate).
  replace (low + (b * 2 ^ k + hi * 2 ^ (k + 8))) with (low + (b + hi * 256) * 2 ^ k).
  - rewrite N.div_add by exact P. rewrite N.div_small by exact L. rewrite N.add_0_l. rewrite N.mod_add by discriminate. apply N.mod_small, B.
  - rewrite N.pow_add_r. change (2 ^ 8) with 256. ring.
Qed.

Lemma byte_digit : forall b0 b1 b2 b3 b4 b5 b6 b7 k,
  b0 < 256 -> b1 < 256 -> b2 < 256 -> b3 < 256 -> b4 < 256 -> b5 < 256 -> b6 < 256 -> b7 < 256 -> k < 8 ->
  (b0 * 2 ^ (8 * 0) + (b1 * 2 ^ (8 * 1) + (b2 * 2 ^ (8 * 2) + (b3 * 2 ^ (8 * 3) + (b4 * 2 ^ (8 * 4) + (b5 * 2 ^ (8 * 5) + (b6 * 2 ^ (8 * 6) + (b7 * 2 ^ (8 * 7) + 0))))))))
    / 2 ^ (8 * k) mod 256 = nth (N.to_nat k) [b0; b1; b2; b3; b4; b5; b6; b7] 0.
Proof.
  intros. 
  assert (K : k = 0 \/ k = 1 \/ k = 2 \/ k = 3 \/ k = 4 \/ k = 5 \/ k = 6 \/ k = 7) by lia.
  decompose [or] K; subst k; match goal with |- ?x / ?d mod 256 = _ => let n := eval vm_compute in d in change d with n end; cbn [nth N.to_nat Pos.to_nat Pos.iter_op Nat.add].
  all: change (2 ^ (8 * 0)) with 1; change (2 ^ (8 * 1)) with 256; change (2 ^ (8 * 2)) with 65536; change (2 ^ (8 * 3)) with 16777216;
    change (2 ^ (8 * 4)) with 4294967296; change (2 ^ (8 * 5)) with 1099511627776; change (2 ^ (8 * 6)) with 281474976710656; change (2 ^ (8 * 7)) with 72057594037927936.
  1: { pose proof (digit 0 b0 (b1 + (b2 + (b3 + (b4 + (b5 + (b6 + b7 * 256) * 256) * 256) * 256) * 256) * 256) 0) as D. 
       etransitivity; [|apply D; [reflexivity|assumption]]. f_equal. f_equal. change (2 ^ 0) with 1. change (2 ^ (0 + 8)) with 256. lia. }
  1: { pose proof (digit b0 b1 (b2 + (b3 + (b4 + (b5 + (b6 + b7 * 256) * 256) * 256) * 256) * 256) 8) as D. 
       etransitivity; [|apply D; [change (2 ^ 8) with 256; lia|assumption]]. f_equal. f_equal. change (2 ^ 8) with 256. change (2 ^ (8 + 8)) with 65536. lia. }
  1: { pose proof (digit (b0 + b1 * 256) b2 (b3 + (b4 + (b5 + (b6 + b7 * 256) * 256) * 256) * 256) 16) as D. 
       etransitivity; [|apply D; [change (2 ^ 16) with 65536; lia|assumption]]. f_equal. f_equal. change (2 ^ 16) with 65536. change (2 ^ (16 + 8)) with 16777216. lia. }
  1: { pose proof (digit (b0 + b1 * 256 + b2 * 65536) b3 (b4 + (b5 + (b6 + b7 * 256) * 256) * 256) 24) as D. 
       etransitivity; [|apply D; [change (2 ^ 24) with 16777216; lia|assumption]]. f_equal. f_equal. change (2 ^ 24) with 16777216. change (2 ^ (24 + 8)) with 4294967296. lia. }
  1: { pose proof (digit (b0 + b1 * 256 + b2 * 65536 + b3 * 16777216) b4 (b5 + (b6 + b7 * 256) * 256) 32) as D. 
       etransitivity; [|apply D; [change (2 ^ 32) with 4294967296; lia|assumption]]. f_equal. f_equal. change (2 ^ 32) with 4294967296. change (2 ^ (32 + 8)) with 1099511627776. lia. }
  1: { pose proof (digit (b0 + b1 * 256 + b2 * 65536 + b3 * 16777216 + b4 * 4294967296) b5 (b6 + b7 * 256) 40) as D. 
       etransitivity; [|apply D; [change (2 ^ 40) with 1099511627776; lia|assumption]]. f_equal. f_equal. change (2 ^ 40) with 1099511627776. change (2 ^ (40 + 8)) with 281474976710656. lia. }
  1: { pose proof (digit (b0 + b1 * 256 + b2 * 65536 + b3 * 16777216 + b4 * 4294967296 + b5 * 1099511627776) b6 b7 48) as D. 
       etransitivity; [|apply D; [change (2 ^ 48) with 281474976710656; lia|assumption]]. f_equal. f_equal. change (2 ^ 48) with 281474976710656. change (2 ^ (48 + 8)) with 72057594037927936. lia. }
  1: { pose proof (digit (b0 + b1 * 256 + b2 * 65536 + b3 * 16777216 + b4 * 4294967296 + b5 * 1099511627776 + b6 * 281474976710656) b7 0 56) as D. 
       etransitivity; [|apply D; [change (2 ^ 56) with 72057594037927936; lia|assumption]]. f_equal. f_equal. change (2 ^ 56) with 72057594037927936. lia. }
Qed.

(** What memcpy leaves in every byte *)
Lemma put_byte : forall f off len src n,
  byte_of (put_bytes f off len src) n = if (off <=? n) && (n <? off + len) then src (n - off) mod 256 else byte_of f n.
Proof.
  intros f off len src n. unfold byte_of, put_bytes.
  assert (En : n = 8 * (n / 8) + n mod 8) by (apply N.div_mod; discriminate). assert (Lk : n mod 8 < 8) by (apply N.mod_lt; discriminate).
  destruct ((8 * (n / 8) + 7 <? off) || (off + len <=? 8 * (n / 8))) eqn:E.
  - replace ((off <=? n) && (n <? off + len)) with false; [reflexivity|]. symmetry. apply orb_true_iff in E. apply andb_false_iff.
    destruct E as [E|E]; [left; apply N.ltb_lt in E; apply N.leb_gt|right; apply N.leb_le in E; apply N.ltb_ge]; lia.
  - clear E. set (byte := fun k => if (off <=? 8 * (n / 8) + k) && (8 * (n / 8) + k <? off + len) then src (8 * (n / 8) + k - off) mod 256 else get_byte f (8 * (n / 8) + k)).
    assert (B : forall k, byte k < 256). { intro k. unfold byte, get_byte. destruct (_ && _); apply N.mod_lt; discriminate. }
    cbn [fold_right]. fold (byte 0) (byte 1) (byte 2) (byte 3) (byte 4) (byte 5) (byte 6) (byte 7).
    rewrite (byte_digit (byte 0) (byte 1) (byte 2) (byte 3) (byte 4) (byte 5) (byte 6) (byte 7) (n mod 8) (B _) (B _) (B _) (B _) (B _) (B _) (B _) (B _) Lk).
    replace (nth (N.to_nat (n mod 8)) [byte 0; byte 1; byte 2; byte 3; byte 4; byte 5; byte 6; byte 7] 0) with (byte (n mod 8)).
    + unfold byte. rewrite <- En. unfold get_byte. reflexivity.
    + generalize (n mod 8), Lk. intros k L. assert (K : k = 0 \/ k = 1 \/ k = 2 \/ k = 3 \/ k = 4 \/ k = 5 \/ k = 6 \/ k = 7) by lia.
      decompose [or] K; subst k; reflexivity.
Qed.

Lemma put_bytes_of : forall f off len src, bytes_of (put_bytes f off len src) off len = map (fun k => src (N.of_nat k) mod 256) (seq 0 (N.to_nat len)).
Proof.
  intros f off len src. unfold bytes_of. apply map_ext_in. intros k K. apply in_seq in K. rewrite put_byte.
  replace ((off <=? off + N.of_nat k) && (off + N.of_nat k <? off + len)) with true.
  - f_equal. f_equal. lia.
  - symmetry. apply andb_true_iff. split; [apply N.leb_le|apply N.ltb_lt]; lia.
Qed.

(* ------------------------------------------------------------------ *)
(** * Tokens *)

Section Call.
Variables (c : cfg) (h : hw) (m : mstate) (o : op) (m' : mstate) (rp : reply) (a : N) (r r' : recd) (d : rdesc).
Hypothesis H : next c h m o m' rp.
Hypothesis RD1 : realm m (r_g_rd r) d.
Hypothesis R' : rec_is m' a r'.

Lemma bad_chunk : forall e at_, r_ctx r = rd_ctx d -> r_regs r 3 < 2 ^ 64 -> chunk_bad d (mkV r e at_) <-> ~ buffer (rd_ctx d) (r_regs r 1) (r_regs r 2) (r_regs r 3).
Proof.
  intros e at_ _ L. unfold chunk_bad, buffer, page_address, protected, wrap64. cbn [v_rec]. change (2 ^ 64) with 18446744073709551616 in *.
  destruct (N.le_gt_cases 4096 (r_regs r 2)) as [K|K]; [split; [intros _ (_ & ? & _); lia|intros _; auto]|].
  destruct (N.lt_ge_cases (r_regs r 2 + r_regs r 3) 18446744073709551616) as [W|W].
  - rewrite (N.mod_small (r_regs r 2 + r_regs r 3)) by exact W. split; [intros B ((B1 & B2) & _ & B3); lia|]. intro B.
    destruct (N.eq_dec (r_regs r 1 mod 4096) 0) as [B1|B1]; [right|left; exact B1].
    destruct (N.lt_ge_cases (r_regs r 1) (2 ^ (ipa_bits (rd_ctx d) - 1))) as [B2|B2]; [|lia].
    destruct (N.le_gt_cases (r_regs r 2 + r_regs r 3) 4096) as [B3|B3]; [exfalso; apply B; auto|]. auto.
  - split; [intros _ (_ & _ & B); lia|]. intros _. right. right.
    assert (E : (r_regs r 2 + r_regs r 3) mod 18446744073709551616 = r_regs r 2 + r_regs r 3 - 18446744073709551616).
    { symmetry. apply (N.mod_unique _ _ 1); lia. }
    rewrite E. right. left. lia.
Qed.

(** The state of the token before and after, if the call delivers [n] bytes *)
Lemma write_parts : forall env x size x' n fin, write_state env x size = (x', Some (n, fin)) -> 
  n <= size /\ exists len buf, n <= len /\ (len = 0 \/ size = 0 \/ 0 < n) /\ a_buf x' = buf /\
    ((a_copied x = 0 /\ ae_cca env = Some (len, buf)) \/ (a_copied x <> 0 /\ len = a_len x /\ buf = a_buf x)) /\
    (if fin : bool then n = len /\ a_realm_len x' = 0 else n < len /\ a_copied x' = a_copied x + n /\ a_len x' = len - n).
Proof.
  intros env x size x' n fin W. unfold write_state in W.
  destruct (N.eqb_spec (a_copied x) 0) as [E|E].
  - destruct (ae_cca env) as [[len buf]|] eqn:CC; [|discriminate W]. cbn [a_len a_copied a_buf a_realm_len] in W.
    destruct (N.ltb_spec size len) as [L|L].
    + destruct (N.eqb_spec (len - size) 0) as [Q|Q]; [lia|]. cbn [negb] in W. injection W as <- <- <-. split; [lia|]. exists len, buf. 
      cbn [a_buf a_copied a_len]. split; [lia|]. split; [lia|]. split; [reflexivity|]. split; [left; auto|]. split; [lia|]. split; reflexivity.
    + rewrite N.sub_diag in W. cbn [negb N.eqb] in W. injection W as <- <- <-. split; [lia|]. exists len, buf. cbn [a_buf a_realm_len].
      split; [lia|]. split; [lia|]. split; [reflexivity|]. split; [left; auto|]. split; reflexivity.
  - destruct (N.ltb_spec size (a_len x)) as [L|L].
    + destruct (N.eqb_spec (a_len x - size) 0) as [Q|Q]; [lia|]. cbn [negb] in W. injection W as <- <- <-. split; [lia|]. exists (a_len x), (a_buf x).
      cbn [a_buf a_copied a_len]. split; [lia|]. split; [lia|]. split; [reflexivity|]. split; [right; auto|]. split; [lia|]. split; reflexivity.
    + rewrite N.sub_diag in W. cbn [negb N.eqb] in W. injection W as <- <- <-. split; [lia|]. exists (a_len x), (a_buf x). cbn [a_buf a_realm_len].
      split; [lia|]. split; [lia|]. split; [reflexivity|]. split; [right; auto|]. split; reflexivity.
Qed.

Definition same_token (x x' : att) : Prop := a_copied x' = a_copied x /\ a_len x' = a_len x /\ a_buf x' = a_buf x.

Lemma signed_token : forall env v x, signed env v x -> same_token (v_att v) x.
Proof. intros env v x [(_ & ->)|(_ & len & _ & ->)]; repeat split. Qed.

Lemma write_none : forall env x size x', write_state env x size = (x', None) -> ae_cca env = None /\ x' = x.
Proof.
  intros env x size x' W. unfold write_state in W. destruct (a_copied x =? 0).
  - destruct (ae_cca env) as [[len buf]|] eqn:CC; [|injection W as <-; auto]. destruct (_ =? _) in W; discriminate W.
  - destruct (_ =? _) in W; discriminate W.
Qed.

(** Every outcome of RSI_ATTESTATION_TOKEN_CONTINUE *)
Lemma continue_parts : rsi_call m o a r RSI_CONTINUE -> exists gh p ev fi tm, o = OExit p ev fi tm /\ MInv c gh m /\ MInv c gh m' /\
  let x := m_att m a in let x' := m_att m' a in
  (((r_regs r 3 < 2 ^ 64 -> ~ buffer (rd_ctx d) (r_regs r 1) (r_regs r 2) (r_regs r 3)) /\ rejected m m' a r r' /\ x' = x) \/
   ((r_regs r 3 < 2 ^ 64 -> buffer (rd_ctx d) (r_regs r 1) (r_regs r 2) (r_regs r 3)) /\
    ((a_realm_len x = 0 /\ x' = x /\ only m m' [a] /\ (returned r r' 2 0 0 0 /\ ae_sign (ev_att ev) = SgState \/ returned r r' 4 0 0 0 /\ ae_sign (ev_att ev) = SgFail)) \/
     ((a_realm_len x = 0 -> ae_sign (ev_att ev) <> SgState) /\
       ((same_token x x' /\ returned r r' 3 0 0 0 /\ only m m' [a]) \/
        (same_token x x' /\ returned r r' 1 0 0 0 /\ only m m' [a] /\ ae_cca (ev_att ev) = None) \/
        (same_token x x' /\ (forall g, page_at (m_gr m) (rd_ctx d) (r_regs r 1) <> PAssigned RAM g) /\ forall ok, with_memory m m' rp a d r r' ok) \/
        (exists g f n fin len buf, realm m' (r_g_rd r) d /\ page_at (m_gr m) (rd_ctx d) (r_regs r 1) = PAssigned RAM g /\ page_at (m_gr m') (rd_ctx d) (r_regs r 1) = PAssigned RAM g /\
           g_mem (m_gr m g) = CW f /\ m_gr m' g = mkG DATA 0 (CW (put_bytes f (r_regs r 2) n (fun k => buf (a_copied x + k)))) /\ only m m' [a; g] /\
           returned r r' (if fin : bool then 0 else 3) n 0 0 /\ n <= r_regs r 3 /\ n <= len /\ (len = 0 \/ 0 < n) /\ a_buf x' = buf /\
           ((a_copied x = 0 /\ ae_cca (ev_att ev) = Some (len, buf)) \/ (a_copied x <> 0 /\ len = a_len x /\ buf = a_buf x)) /\
           (if fin then n = len /\ a_realm_len x' = 0 else n < len /\ a_copied x' = a_copied x + n /\ a_len x' = len - n))))))).
Proof.
  intros RC. pose proof (call_rec _ _ _ _ _ RC) as R. destruct (rsi_step _ _ _ _ _ _ _ _ _ _ H RC RD1) as (gh & p & ev & fi & tm & labs & v2 & s & r2 & Eo & M & M' & R2 & RO & OUT & LV & F & E12 & PE & GR & AT & RP).
  assert (r2 = r') by (destruct R2, R'; congruence). subst r2. exists gh, p, ev, fi, tm. split; [exact Eo|]. split; [exact M|]. split; [exact M'|]. cbv zeta.
  assert (EA : m_att m' a = v_att v2) by (rewrite AT; apply upd_same). rewrite EA.
  assert (EX : r_ctx r = rd_ctx d) by apply RO. pose proof (bad_chunk exit_zero (m_att m a) EX) as BC.
  assert (SG : forall x, signed (ev_att ev) (mkV r exit_zero (m_att m a)) x -> a_realm_len (m_att m a) = 0 -> ae_sign (ev_att ev) <> SgState).
  { intros x [(K & _)|(_ & len & K & _)]; cbn [v_att] in *; [intro; contradiction|congruence]. }
  destruct (continue_eff _ _ _ _ _ _ _ _ _ OUT F) as (EV & [(B & -> & -> & ->)|(B & K)]); cbn [v_rec v_exit v_att] in *.
  { left. split; [intro L3; apply (BC L3), B|]. split; [|reflexivity]. cbn [ra_update ra_abort ra_x ret_realm] in E12. destruct E12 as (E1 & E2).
    split; [apply returned_rx; assumption|apply only_nil; assumption]. }
  right. assert (PR : protected (rd_ctx d) (r_regs r 1)).
  { unfold protected. destruct (N.lt_ge_cases (r_regs r 1) (2 ^ (ipa_bits (rd_ctx d) - 1))) as [Q3|Q3]; [exact Q3|exfalso; apply B; do 4 right; exact Q3]. }
  split.
  { intro L3. destruct (N.eq_dec (r_regs r 1 mod 4096) 0) as [Q1|Q1]; [|exfalso; apply B; left; exact Q1].
    destruct (N.lt_ge_cases (r_regs r 2) 4096) as [Q2|Q2]; [|exfalso; apply B; right; left; exact Q2].
    destruct (N.le_gt_cases (r_regs r 2 + r_regs r 3) 4096) as [Q4|Q4]; [split; [split; [exact Q1|exact PR]|split; [exact Q2|exact Q4]]|].
    exfalso. apply B, (BC L3). intros (_ & _ & K4). lia. }
  destruct K as [(-> & A0 & -> & x & X & ->)|[(len & -> & A0 & SI & EA2 & EXX & ->)|(x & SX & EX2 & K)]].
  - left. cbn [v_att v_rec] in *. cbn [ra_update ra_abort ra_x ret_realm] in E12. destruct E12 as (E1 & E2). split; [exact A0|]. split; [reflexivity|].
    split; [apply only_nil; assumption|]. destruct X as [(-> & X)|(-> & X)]; [left|right]; (split; [apply returned_rx; assumption|exact X]).
  - right. split; [intros _; congruence|]. left. rewrite EV in E12. cbn [ra_update ra_abort ra_x ret_host] in E12. destruct E12 as (E1 & E2).
    split; [rewrite EA2; repeat split|]. split; [apply returned_rx; assumption|apply only_nil; assumption].
  - right. split; [apply (SG x SX)|]. pose proof (signed_token _ _ _ SX) as ST. cbn [v_att] in ST.
    rewrite EV in E12.
    destruct K as [(-> & Z & EA2 & ->)|[(-> & NZ & WS & ->)|[(-> & EA2 & NP)|(g & f & n & fin & NZ & RPG & Ef & WS & -> & ->)]]].
    + left. cbn [ra_update ra_abort ra_x ret_realm] in E12. destruct E12 as (E1 & E2). rewrite EA2. split; [exact ST|]. split; [apply returned_rx; assumption|apply only_nil; assumption].
    + right. left. cbn [ra_update ra_abort ra_x ret_realm] in E12. destruct E12 as (E1 & E2). apply write_none in WS. destruct WS as (CN & ->).
      split; [exact ST|]. split; [apply returned_rx; assumption|]. split; [apply only_nil; assumption|exact CN].
    + right. right. left. rewrite EA2. split; [exact ST|]. split.
      * intros g Hg. destruct NP as (l & b & e & LF & NP). pose proof (protected_in _ _ _ _ _ _ (proj1 H) RD1 PR) as Hi.
        destruct (view_leaf _ _ _ _ (mv_inv _ _ _ M) _ _ _ _ _ _ RD1 Hi LF) as [VL _]. rewrite VL in Hg. destruct e; try discriminate Hg. destruct NP as [(NP & _)|(_ & NP & _)]; [discriminate NP|exact (NP _ eq_refl)].
      * intro ok. eapply (no_page_memory c h m o m' rp a r r' d H RD1); try eassumption. apply (mv_inv _ _ _ M).
    + right. right. right. cbn [ra_update ra_abort ra_x ret_realm] in E12. destruct E12 as (E1 & E2).
      destruct (write_parts _ _ _ _ _ _ WS) as (L1 & len & buf & L2 & LN & EB & SRC & FIN). destruct ST as (S1 & S2 & S3). rewrite S1, S2, S3 in *.
      exists g, f, n, fin, len, buf. pose proof (ram_at c h m o m' rp r d H RD1 gh g (mv_inv _ _ _ M) PR RPG) as PA.
      assert (NA : g <> a). { destruct RPG as (l & b & pa & _ & _ & DM). eapply (rec_not m a r); [exact R| |]; [apply (i_dmap _ _ _ _ (mv_inv _ _ _ M) _ _ _ DM)|discriminate]. }
      cbn [after_labs fold_left] in GR.
      assert (RD2 : realm m' (r_g_rd r) d).
      { unfold realm, is_rd. assert (N1 : r_g_rd r <> a) by (intro Q; destruct R as [Q1 _], RD1 as [Q2 _]; rewrite Q in Q2; congruence).
        assert (N2 : r_g_rd r <> g). { intro Q. destruct RPG as (l & b & pa & _ & _ & DM). destruct RD1 as [Q2 _]. rewrite Q in Q2. pose proof (i_dmap _ _ _ _ (mv_inv _ _ _ M) _ _ _ DM) as Q3. destruct Q3; congruence. }
        rewrite GR by exact N1. rewrite upd_other by exact N2. exact RD1. }
      split; [exact RD2|]. split; [exact PA|].
      assert (H2 : reachable c h m') by (eapply next_reachable; exact H).
      split. { destruct RPG as (l & b & pa & LF & -> & _). pose proof (protected_in _ _ _ _ _ _ H2 RD2 PR) as Hi.
        destruct (view_leaf _ _ _ _ (mv_inv _ _ _ M') _ _ _ _ _ _ RD2 Hi LF) as [-> _]. reflexivity. }
      split; [exact Ef|]. split. { rewrite GR by exact NA. rewrite upd_same. rewrite EB. reflexivity. }
      split; [eapply only_two; exact GR|]. split. { destruct fin; apply returned_rx; assumption. }
      split; [exact L1|]. split; [exact L2|]. split; [destruct LN as [K|[K|K]]; [left; exact K|contradiction|right; exact K]|]. split; [exact EB|].
      split; [exact SRC|exact FIN].
Qed.
End Call.

(** Who changes the attestation data of a REC *)
Lemma att_kept : forall c h m o m' rp a, next c h m o m' rp ->
  (forall r, ~ rsi_call m o a r RSI_INIT) -> (forall r, ~ rsi_call m o a r RSI_CONTINUE) -> (forall p rd pa x, ~ done o rp (KRecCreate p rd a pa) x) ->
  m_att m' a = m_att m a.
Proof.
  intros c h m o m' rp a H N4 N5 NC. destruct o as [p k|p b ra en fi tm|p ev fi tm|p regs sp pc pstate sys|p ipa rt|p ipa v|p ipa|p b f|b i v].
  3: { destruct (exit_step _ _ _ _ _ _ _ _ _ H) as (gh & b & r & d & simd & labs & v1 & simd' & go & r' & M & EX & R & RD & R' & NR & EC & EO & CR & SS & AT & RP).
    rewrite AT. destruct (N.eq_dec a b) as [->|NE]; [rewrite upd_same|apply upd_other; exact NE].
    remember (v1, simd', go) as ot eqn:Eo.
    destruct EO as [E|E|E|r2 E Hr|r2 x2 s2 g2 Hx He Hs|labs out1 Hx He Hs Lv]; try (injection Eo as <- _ _; reflexivity).
    - injection Eo as <- _ _. destruct g2; reflexivity.
    - assert (F : forall n, rsi_fid (mkV r exit_zero (m_att m b)) = SMC_RSI_FID n -> n = 4 \/ n = 5 -> False).
      { intros n F K. assert (SM : smc m (OExit p ev fi tm) b r).
        { exists p, ev, fi, tm. split; [reflexivity|]. split; [exact EX|]. split; [exact R|]. split; [exact Hx|]. pose proof (proj1 (class_ec ev 23 ltac:(reflexivity)) He) as K1. rewrite <- K1. unfold class, field, bits. reflexivity. }
        destruct K as [-> | ->]; [apply (N4 r)|apply (N5 r)]; (split; [exact SM|exact F]). }
      change (v_set_exit (mkV r exit_zero (m_att m b)) (ex_set_reason (v_exit (mkV r exit_zero (m_att m b))) RMI_EXIT_SYNC)) with (mkV r exit_zero (m_att m b)) in Hs.
      destruct out1 as [v2 s]. 
      assert (K : v_att v2 = m_att m b).
      { remember (v2, s) as q eqn:Eq. destruct Hs; injection Eq as <- <-; try reflexivity.
        - match goal with X : ?t |- _ => match t with context [att_out] => destruct X as [X|? X|? ? X|? ? X] end end; try (exfalso; eapply F; [eassumption|auto]; fail).
          match goal with X : _ \/ _ |- _ => destruct X as [(X & _)|[(_ & _ & ->)|(_ & _ & ->)]] end; [exfalso; eapply F; [eassumption|auto]|reflexivity|reflexivity].
        - exfalso; eapply F; [eassumption|auto].
        - match goal with X : ?t |- _ => match t with context [page_out] => destruct X as [X|? ? ? ? X] end end; [reflexivity|exfalso; eapply F; [eassumption|auto]].
        - match goal with X : _ \/ _ |- _ => destruct X as [(X & _)|[(_ & _ & ->)|(_ & _ & ->)]] end; [exfalso; eapply F; [eassumption|auto]|reflexivity|reflexivity]. }
      injection Eo as <- _ _. rewrite <- K. assert (K1 : v_att (fst (rsi_result (v2, s))) = v_att v2) by (unfold rsi_result; cbn [fst snd]; destruct (ra_abort s); reflexivity).
      destruct (snd (rsi_result (v2, s))); exact K1. }
  all: destruct (next_good _ _ _ _ _ _ H) as (gh & gh' & labs & M & M' & GE & OE); cbn [op_eff] in OE.
  - destruct OE as (_ & r & inv & -> & _ & _ & _ & ->). unfold att_after. destruct k; try reflexivity.
    destruct (N.eqb_spec (x0 r) RMI_SUCCESS) as [E|E]; [|reflexivity]. apply upd_other. intros ->. eapply NC. exists p. split; [reflexivity|]. split; [reflexivity|exact E].
  - destruct OE as (_ & _ & out & _ & _ & -> & _). reflexivity.
  - destruct OE as (_ & _ & (_ & _ & ->) & _). reflexivity.
  - destruct OE as (_ & _ & (_ & _ & ->) & _). reflexivity.
  - destruct OE as (_ & _ & (_ & _ & ->) & _). reflexivity.
  - destruct OE as (_ & _ & _ & _ & -> & _). reflexivity.
  - destruct OE as (_ & _ & (_ & _ & ->) & _). reflexivity.
  - destruct OE as (_ & _ & (_ & _ & ->) & _). reflexivity.
Qed.

(* ------------------------------------------------------------------ *)
(** * The bytes a realm receives *)

Lemma map_shift : forall (b : N -> N) n g, map (fun k => b (N.of_nat g + N.of_nat k)) (seq 0 n) = map (fun k => b (N.of_nat k)) (seq g n).
Proof.
  intros b n g. assert (K : forall i, map (fun k => b (N.of_nat g + N.of_nat k)) (seq i n) = map (fun k => b (N.of_nat k)) (seq (g + i) n)).
  { induction n as [|n IH]; intro i; [reflexivity|]. cbn [seq map]. f_equal; [f_equal; lia|]. rewrite IH. f_equal. f_equal. lia. }
  rewrite (K 0%nat), Nat.add_0_r. reflexivity.
Qed.
Lemma firstn_seq : forall n k i, (n <= k)%nat -> firstn n (seq i k) = seq i n.
Proof. induction n as [|n IH]; intros k i L; [reflexivity|]. destruct k as [|k]; [lia|]. cbn [seq firstn]. f_equal. apply IH. lia. Qed.

Lemma rest_bytes : forall (b : N -> N) tok got rest n, map (fun k => b (N.of_nat k)) (seq 0 (length tok)) = tok -> tok = got ++ rest -> (n <= length rest)%nat ->
  map (fun k => b (N.of_nat (length got) + N.of_nat k)) (seq 0 n) = firstn n rest.
Proof.
  intros b tok got rest n E -> L. rewrite app_length, seq_app, map_app in E.
  assert (K : map (fun k => b (N.of_nat k)) (seq (0 + length got) (length rest)) = rest).
  { apply (f_equal (skipn (length got))) in E. rewrite !skipn_app in E. rewrite map_length, seq_length in E.
    rewrite Nat.sub_diag in E. rewrite (skipn_all2 got) in E by lia. rewrite skipn_all2 in E by (rewrite map_length, seq_length; lia). exact E. }
  rewrite map_shift. cbn [Nat.add] in K. rewrite <- K. rewrite firstn_map. rewrite firstn_seq by exact L. reflexivity.
Qed.

Definition dinv (m : mstate) (a : N) (ph : phase) : Prop :=
  let x := m_att m a in
  match ph with
  | Idle => a_copied x = 0
  | Part tok got => exists rest, tok = got ++ rest /\ rest <> [] /\ got <> [] /\ a_copied x = N.of_nat (length got) /\ a_len x = N.of_nat (length rest) /\
      map (fun k => a_buf x (N.of_nat k) mod 256) (seq 0 (length tok)) = tok
  | Full tok got => got = tok /\ a_realm_len x = 0
  end.

Lemma dinv_same : forall m m' a ph, m_att m' a = m_att m a -> dinv m a ph -> dinv m' a ph.
Proof. intros m m' a ph E D. unfold dinv in *. rewrite E. exact D. Qed.
Lemma dinv_token : forall m m' a ph, same_token (m_att m a) (m_att m' a) -> (forall t g, ph <> Full t g) -> dinv m a ph -> dinv m' a ph.
Proof.
  intros m m' a ph (E1 & E2 & E3) NF D. unfold dinv in *. destruct ph as [|tok got|tok got]; [congruence|rewrite E1, E2, E3; exact D|]. exfalso. eapply NF; reflexivity.
Qed.

Lemma delivery_inv : forall c h a m ph, delivery c h a m ph -> dinv m a ph.
Proof.
  intros c h a m ph D. induction D as [m o m' rp p rd pa x H DN|m o m' rp r H RC|m ph p ev fi tm m' rp r r' d f D IH H RC R' RD W SGN|m ph o m' rp D IH H N4 N5 NC].
  - destruct DN as (p0 & -> & -> & X). destruct (next_good _ _ _ _ _ _ H) as (gh & gh' & labs & M & M' & GE & OE); cbn [op_eff] in OE.
    destruct OE as (_ & r0 & inv & Er & _ & _ & _ & AT). injection Er as <-. cbn [dinv]. rewrite AT. unfold att_after. rewrite X, N.eqb_refl. rewrite upd_same. reflexivity.
  - destruct (rec_realm _ _ _ (proj1 H) a r (call_rec _ _ _ _ _ RC)) as (d & RD & _).
    destruct (rsi_step _ _ _ _ _ _ _ _ _ _ H RC RD) as (gh & p & ev & fi & tm & labs & v2 & s & r2 & Eo & M & M' & R2 & RO & OUT & LV & F & E12 & PE & GR & AT & RP).
    cbn [dinv]. rewrite AT, upd_same. pose proof (init_eff _ _ _ _ _ _ _ _ _ OUT F) as (_ & -> & _). reflexivity.
  - destruct (rec_realm _ _ _ (proj1 H) a r (call_rec _ _ _ _ _ RC)) as (d0 & RD0 & _).
    destruct (continue_parts _ _ _ _ _ _ _ _ _ _ H RD0 R' RC) as (gh & p1 & ev1 & fi1 & tm1 & Eo & M & M' & K). cbv zeta in K. injection Eo as <- <- <- <-.
    assert (F0 : r_regs r 0 <> 0 /\ r_regs r 0 <> 3). { destruct RC as (_ & F). split; intro E; rewrite E in F; discriminate F. }
    destruct K as [(_ & ((K0 & K1 & _) & _) & E)|(_ & [(A0 & E & _ & K)|(SS & K)])].
    + apply (dinv_same _ _ _ _ E) in IH. unfold chunk. rewrite K0. destruct ph; exact IH.
    + apply (dinv_same _ _ _ _ E) in IH. unfold chunk. destruct K as [((K & _) & _)|((K & _) & _)]; rewrite K; destruct ph; exact IH.
    + assert (NF : forall t g, ph <> Full t g). { intros t g ->. destruct IH as (_ & A0). apply (SS A0). apply (SGN t g eq_refl). }
      destruct K as [(E & (K0 & K1 & _) & _)|[(E & (K0 & K1 & _) & _)|[(E & NP & K)|K]]].
      * apply (dinv_token _ _ _ _ E NF) in IH. unfold chunk. rewrite K0, K1. destruct ph as [|tok got|tok got]; [exact IH| |exact IH].
        unfold bytes_of. cbn [N.to_nat seq map]. rewrite app_nil_r. exact IH.
      * apply (dinv_token _ _ _ _ E NF) in IH. unfold chunk. rewrite K0. destruct ph; exact IH.
      * apply (dinv_token _ _ _ _ E NF) in IH. specialize (K (fun _ => False)). unfold with_memory in K.
        assert (C : r_regs r' 0 = 1 \/ r_regs r' 0 = r_regs r 0).
        { destruct (page_at (m_gr m) (rd_ctx d0) (r_regs r 1)) as [|[]|[] g| |]; first [left; apply (proj1 (proj1 K))|right; apply (proj1 K)|contradiction K]. }
        unfold chunk. destruct C as [C|C]; rewrite C; [destruct ph; exact IH|]. destruct F0 as (F0 & F3).
        destruct ph as [|tok got|tok got]; destruct (r_regs r 0) as [|[[?|?|]|?|]]; try exact IH; try contradiction; exfalso; apply F3; reflexivity.
      * destruct K as (g & f0 & n & fin & len & buf & RD2 & PA & PA' & Ef & Em & ON & (K0 & K1 & _) & L1 & L2 & LN & EB & SRC & FIN).
        assert (d = d0) by (destruct RD, RD2; congruence). subst d0.
        assert (Ef' : f = put_bytes f0 (r_regs r 2) n (fun k => buf (a_copied (m_att m a) + k))).
        { symmetry. apply W. rewrite PA'. cbn [page_words]. rewrite Em. reflexivity. }
        assert (NW : bytes_of f (r_regs r 2) (r_regs r' 1) = map (fun k => buf (a_copied (m_att m a) + N.of_nat k) mod 256) (seq 0 (N.to_nat n))).
        { rewrite Ef', K1. apply put_bytes_of. }
        unfold chunk. rewrite NW, K0, K1. destruct ph as [|tok got|tok got]; [| |exfalso; eapply NF; reflexivity].
        -- cbn [dinv] in IH. rewrite IH in *. destruct SRC as [(_ & SRC)|(SRC & _)]; [|contradiction SRC; reflexivity].
           assert (ET : token ev = map (fun k => buf (N.of_nat k) mod 256) (seq 0 (N.to_nat len))) by (unfold token; rewrite SRC; reflexivity).
           destruct fin.
           ++ destruct FIN as (-> & FIN). cbn [dinv]. split; [|exact FIN]. rewrite ET. apply map_ext. intro k. f_equal.
           ++ destruct FIN as (L3 & C1 & C2). assert (n <> 0) by lia. destruct n as [|n]; [contradiction|].
              set (b := fun k => buf k mod 256) in *. assert (ET' : token ev = map (fun k => b (N.of_nat k)) (seq 0 (N.to_nat len))) by exact ET.
              assert (LT : length (token ev) = N.to_nat len) by (rewrite ET, map_length, seq_length; reflexivity).
              set (got := map (fun k => buf (0 + N.of_nat k) mod 256) (seq 0 (N.to_nat (N.pos n)))).
              assert (LG : length got = N.to_nat (N.pos n)) by (unfold got; rewrite map_length, seq_length; reflexivity).
              exists (skipn (length got) (token ev)). split.
              { rewrite <- (firstn_skipn (length got) (token ev)) at 1. f_equal. rewrite ET', firstn_map, firstn_seq by lia. rewrite LG. apply map_ext. intro k. reflexivity. }
              split. { intro E. apply (f_equal (@length N)) in E. rewrite skipn_length in E. cbn [length] in E. lia. }
              split. { intro E. rewrite E in LG. cbn [length] in LG. lia. }
              split; [rewrite C1, LG; lia|]. split; [rewrite C2, skipn_length; lia|]. rewrite LT, EB. symmetry. exact ET'.
        -- cbn [dinv] in IH. destruct IH as (rest & ET & NR & NG & C1 & C2 & MB). destruct SRC as [(SRC & _)|(_ & -> & ->)].
           { exfalso. rewrite SRC in C1. destruct got; [contradiction NG; reflexivity|]. cbn [length] in C1. lia. }
           rewrite C1 in *. rewrite C2 in *.
           assert (NB : map (fun k => a_buf (m_att m a) (N.of_nat (length got) + N.of_nat k) mod 256) (seq 0 (N.to_nat n)) = firstn (N.to_nat n) rest).
           { apply (rest_bytes (fun k => a_buf (m_att m a) k mod 256) tok); [exact MB|exact ET|lia]. }
           rewrite NB. destruct fin.
           ++ destruct FIN as (-> & FIN). cbn [dinv]. split; [|exact FIN]. rewrite Nat2N.id, firstn_all. symmetry. exact ET.
           ++ destruct FIN as (L3 & C3 & C4). cbn [dinv]. exists (skipn (N.to_nat n) rest). rewrite EB.
              split; [rewrite <- app_assoc, firstn_skipn; exact ET|]. split. { intro E. apply (f_equal (@length N)) in E. rewrite skipn_length in E. cbn [length] in E. lia. }
              split. { intro E. apply app_eq_nil in E. apply NG, E. }
              split; [rewrite C3, app_length, firstn_length; lia|]. split; [rewrite C4, skipn_length; lia|exact MB].
  - apply (dinv_same m m' a ph); [|exact IH]. eapply att_kept; eassumption.
Qed.

Lemma delivery_part : forall c h a m tok got, delivery c h a m (Part tok got) -> exists rest, rest <> [] /\ tok = got ++ rest.
Proof. intros c h a m tok got D. destruct (delivery_inv _ _ _ _ _ D) as (rest & E & N & _). exists rest. auto. Qed.
Lemma delivery_full : forall c h a m tok got, delivery c h a m (Full tok got) -> got = tok.
Proof. intros c h a m tok got D. apply (delivery_inv _ _ _ _ _ D). Qed.

Lemma continue_step : forall c h m o m' rp a r r' d, next c h m o m' rp -> realm m (r_g_rd r) d -> rec_is m' a r' -> rsi_call m o a r RSI_CONTINUE ->
  r_regs r 3 < 2 ^ 64 ->
  (buffer (rd_ctx d) (r_regs r 1) (r_regs r 2) (r_regs r 3) ->
     (exists v, In v [1; 2; 3; 4] /\ returned r r' v 0 0 0 /\ only m m' [a]) \/
     with_memory m m' rp a d r r' (fun g => exists n f f', (returned r r' 0 n 0 0 \/ returned r r' 3 n 0 0) /\ n <= r_regs r 3 /\ r_regs r 2 + n <= 4096 /\
       only m m' [a; g] /\ g_mem (m_gr m g) = CW f /\ g_mem (m_gr m' g) = CW f' /\ g_state (m_gr m' g) = DATA /\
       forall k, ~ (r_regs r 2 <= k < r_regs r 2 + n) -> byte_of f' k = byte_of f k)) /\
  (~ buffer (rd_ctx d) (r_regs r 1) (r_regs r 2) (r_regs r 3) -> rejected m m' a r r').
Proof.
  intros c h m o m' rp a r r' d H RD R' RC L3.
  destruct (continue_parts _ _ _ _ _ _ _ _ _ _ H RD R' RC) as (gh & p1 & ev1 & fi1 & tm1 & Eo & M & M' & K). cbv zeta in K.
  destruct K as [(B & K & _)|(B & K)]; specialize (B L3); (split; [|intro Q; first [exact K|contradiction]]); [intro; contradiction|].
  intros _. cbn [In]. destruct K as [(_ & _ & ON & [(K & _)|(K & _)])|(_ & [(_ & K & ON)|[(_ & K & ON & _)|[(_ & _ & K)|K]]])].
  - left. exists 2. auto.
  - left. exists 4. auto 7.
  - left. exists 3. auto 7.
  - left. exists 1. auto.
  - right. apply K.
  - right. destruct K as (g & f & n & fin & len & buf & _ & PA & _ & Ef & Em & ON & RT & L1 & _). unfold with_memory. rewrite PA.
    exists n, f. eexists. split; [destruct fin; [left|right]; exact RT|]. split; [exact L1|]. split; [destruct B as (_ & _ & B); lia|]. split; [exact ON|].
    split; [exact Ef|]. rewrite Em. cbn [g_mem g_state]. split; [reflexivity|]. split; [reflexivity|]. intros k NK. rewrite put_byte.
    replace ((r_regs r 2 <=? k) && (k <? r_regs r 2 + n)) with false; [reflexivity|]. symmetry. apply andb_false_iff.
    destruct (N.le_gt_cases (r_regs r 2) k); [right; apply N.ltb_ge; lia|left; apply N.leb_gt; assumption].
Qed.

Lemma memory_fault : forall m m' rp a d r r' ok, with_memory m m' rp a d r r' ok ->
  (forall g, page_at (m_gr m) (rd_ctx d) (r_regs r 1) <> PAssigned RAM g) -> page_ripas (page_at (m_gr m) (rd_ctx d) (r_regs r 1)) <> Some EMPTY ->
  faulted m m' rp a d r r'.
Proof.
  intros m m' rp a d r r' ok W NR NE. unfold with_memory in W. destruct (page_at (m_gr m) (rd_ctx d) (r_regs r 1)) as [|[]|[] g| |]; cbn [page_ripas] in *; try exact W; try congruence.
  exfalso. eapply NR. reflexivity.
Qed.

Lemma fault_step : forall c h m o m' rp a r r' d n, next c h m o m' rp -> realm m (r_g_rd r) d -> rec_is m' a r' -> rsi_call m o a r n ->
  n = RSI_CONFIG /\ page_address (rd_ctx d) (r_regs r 1) \/ n = RSI_HOST /\ host_address (rd_ctx d) (r_regs r 1) ->
  (forall g, page_at (m_gr m) (rd_ctx d) (r_regs r 1) <> PAssigned RAM g) -> page_ripas (page_at (m_gr m) (rd_ctx d) (r_regs r 1)) <> Some EMPTY ->
  faulted m m' rp a d r r'.
Proof.
  intros c h m o m' rp a r r' d n H RD R' RC [(-> & P)|(-> & P)] NR NE.
  - eapply memory_fault; [exact (proj1 (config_step _ _ _ _ _ _ _ _ _ _ H RD R' RC) P)|exact NR|exact NE].
  - eapply memory_fault; [exact (proj1 (host_step _ _ _ _ _ _ _ _ _ _ H RD R' RC) P)|exact NR|exact NE].
Qed.

Lemma pc_moves : forall p, p < 2 ^ 64 -> (p + 4) mod 2 ^ 64 <> p.
Proof.
  intros p L E. change (2 ^ 64) with 18446744073709551616 in *. destruct (N.lt_ge_cases (p + 4) 18446744073709551616) as [K|K].
  - rewrite N.mod_small in E by exact K. lia.
  - replace ((p + 4) mod 18446744073709551616) with (p + 4 - 18446744073709551616) in E by (apply (N.mod_unique _ _ 1); lia). lia.
Qed.

Lemma continue_fault : forall c h m o m' rp a r r' d, next c h m o m' rp -> realm m (r_g_rd r) d -> rec_is m' a r' -> rsi_call m o a r RSI_CONTINUE ->
  r_regs r 3 < 2 ^ 64 -> r_pc r' = r_pc r -> r_pc r < 2 ^ 64 -> faulted m m' rp a d r r'.
Proof.
  intros c h m o m' rp a r r' d H RD R' RC L3 EP LP. pose proof (pc_moves _ LP) as NP.
  assert (NB : forall v0 v1 v2 v3, ~ returned r r' v0 v1 v2 v3). { intros v0 v1 v2 v3 K. apply NP. rewrite <- EP at 2. symmetry. apply K. }
  assert (ND : buffer (rd_ctx d) (r_regs r 1) (r_regs r 2) (r_regs r 3) \/ ~ buffer (rd_ctx d) (r_regs r 1) (r_regs r 2) (r_regs r 3)) by (unfold buffer, page_address, protected; lia).
  destruct (continue_step _ _ _ _ _ _ _ _ _ _ H RD R' RC L3) as (K1 & K2). destruct ND as [ND|ND].
  - destruct (K1 ND) as [(v & _ & K & _)|K]; [exfalso; eapply NB; exact K|]. unfold with_memory in K.
    destruct (page_at (m_gr m) (rd_ctx d) (r_regs r 1)) as [|[]|[] g| |]; try exact K; exfalso.
    + eapply NB, K. + eapply NB, K.
    + destruct K as (n & f & f' & [K|K] & _); eapply NB, K.
  - exfalso. eapply NB. apply (K2 ND).
Qed.
