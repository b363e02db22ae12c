(** Doubly linked lists: neighbours in a list, and how they change *)
From Coq Require Import NArith List Bool Lia.
Import ListNotations.
Local Open Scope N_scope.

Fixpoint next_of (l : list N) (b : N) : N := match l with [] => 0 | x :: t => if x =? b then hd 0 t else next_of t b end.
Fixpoint prev_from (p : N) (l : list N) (b : N) : N := match l with [] => 0 | x :: t => if x =? b then p else prev_from x t b end.
Definition prev_of := prev_from 0.

Lemma next_notin : forall l b, ~ In b l -> next_of l b = 0.
Proof. induction l as [|x l IH]; intros b H; [reflexivity|]. cbn in *. destruct (N.eqb_spec x b); [tauto|]. apply IH. tauto. Qed.
Lemma prev_from_notin : forall l p b, ~ In b l -> prev_from p l b = 0.
Proof. induction l as [|x l IH]; intros p b H; [reflexivity|]. cbn in *. destruct (N.eqb_spec x b); [tauto|]. apply IH. tauto. Qed.
Lemma prev_notin : forall l b, ~ In b l -> prev_of l b = 0.
Proof. intros. apply prev_from_notin. assumption. Qed.
Lemma next_in : forall l b, next_of l b <> 0 -> In (next_of l b) l.
Proof.
  induction l as [|x l IH]; intros b H; cbn [next_of] in *; [congruence|]. destruct (x =? b).
  - destruct l; cbn in *; [congruence|]. auto.
  - right. apply IH, H.
Qed.
Lemma prev_from_in : forall l p b, prev_from p l b <> 0 -> prev_from p l b = p \/ In (prev_from p l b) l.
Proof.
  induction l as [|x l IH]; intros p b H; cbn [prev_from] in *; [congruence|]. destruct (x =? b); [auto|].
  destruct (IH x b H) as [E|E]; [rewrite E; cbn; auto|cbn; auto].
Qed.
Lemma prev_in : forall l b, prev_of l b <> 0 -> In (prev_of l b) l.
Proof. intros l b H. destruct (prev_from_in l 0 b H) as [E|E]; [unfold prev_of in H; congruence|exact E]. Qed.

Lemma next_app_r : forall l1 X b, ~ In b l1 -> next_of (l1 ++ X) b = next_of X b.
Proof. induction l1 as [|x l IH]; intros X b H; [reflexivity|]. cbn in *. destruct (N.eqb_spec x b); [tauto|]. apply IH. tauto. Qed.
Lemma next_app_l : forall l1 X b, NoDup l1 -> In b l1 -> next_of (l1 ++ X) b = if b =? last l1 0 then hd 0 X else next_of l1 b.
Proof.
  induction l1 as [|x l IH]; intros X b ND H; [destruct H|]. inversion ND as [|? ? NI ND']; subst.
  destruct l as [|y l].
  - destruct H as [->|[]]. cbn. rewrite !N.eqb_refl. reflexivity.
  - change (last (x :: y :: l) 0) with (last (y :: l) 0). destruct H as [->|H].
    + cbn [next_of app hd]. rewrite N.eqb_refl. destruct (N.eqb_spec b (last (y :: l) 0)) as [E|_]; [|reflexivity].
      exfalso. apply NI. rewrite E. clear. generalize y. induction l as [|z l IH]; intro w; [cbn; auto|]. right. apply (IH z).
    + specialize (IH X b ND' H). cbn [app next_of] in *. destruct (N.eqb_spec x b) as [->|NE]; [contradiction|]. exact IH.
Qed.
Lemma prev_from_app_l : forall l1 X p b, In b l1 -> prev_from p (l1 ++ X) b = prev_from p l1 b.
Proof. induction l1 as [|x l IH]; intros X p b H; [destruct H|]. cbn in *. destruct (N.eqb_spec x b); [reflexivity|]. apply IH. destruct H; [contradiction|assumption]. Qed.
Lemma last_cons : forall (l : list N) x p, last (x :: l) p = last l x.
Proof. induction l as [|y l IH]; intros x p; [reflexivity|]. change (last (x :: y :: l) p) with (last (y :: l) p). rewrite !IH. destruct l; reflexivity. Qed.
Lemma prev_from_app_r : forall l1 X p b, ~ In b l1 -> prev_from p (l1 ++ X) b = prev_from (last l1 p) X b.
Proof.
  induction l1 as [|x l IH]; intros X p b H; [reflexivity|]. cbn [app prev_from]. destruct (N.eqb_spec x b) as [->|NE]; [cbn in H; tauto|].
  rewrite IH by (cbn in H; tauto). rewrite last_cons. reflexivity.
Qed.
Lemma last_in : forall (l : list N), l <> [] -> In (last l 0) l.
Proof. induction l as [|x l IH]; intro H; [congruence|]. destruct l; [cbn; auto|]. right. apply IH. discriminate. Qed.

Lemma hd_app : forall l X Y, ~ In 0 l -> hd 0 (l ++ X) = if last l 0 =? 0 then hd 0 X else hd 0 (l ++ Y).
Proof.
  intros l X Y H. destruct l as [|x t]; [reflexivity|]. destruct (N.eqb_spec (last (x :: t) 0) 0) as [Z|_]; [|reflexivity].
  exfalso. apply H. rewrite <- Z at 1. apply last_in. discriminate.
Qed.

Lemma hd_nz : forall l, hd 0 l <> 0 -> In (hd 0 l) l.
Proof. intros [|x l]; cbn; [congruence|auto]. Qed.

Section L.
  Variables (l1 l2 : list N) (c : N).
  Let l := l1 ++ c :: l2.
  Hypothesis ND : NoDup l.
  Hypothesis NZ : ~ In 0 l.

  Lemma l_c1 : ~ In c l1.
  Proof. intro H. apply NoDup_remove_2 in ND. apply ND, in_or_app. auto. Qed.
  Lemma l_c2 : ~ In c l2.
  Proof. intro H. apply NoDup_remove_2 in ND. apply ND, in_or_app. auto. Qed.
  Lemma l_nd : NoDup (l1 ++ l2).
  Proof. exact (NoDup_remove_1 _ _ _ ND). Qed.
  Lemma l_nd1 : NoDup l1.
  Proof. clear NZ. pose proof ND as H. unfold l in H. revert H. generalize (c :: l2). clear. induction l1 as [|x l IH]; intros X H; constructor.
    - inversion H; subst. intro K. apply H2, in_or_app. auto.
    - inversion H; subst. eapply IH. eassumption. Qed.
  Lemma l_12 : forall b, In b l1 -> ~ In b l2.
  Proof. intros b H1 H2. apply in_split in H1. destruct H1 as (u & v & E). pose proof l_nd as H. rewrite E in H. rewrite <- app_assoc in H. cbn in H. apply NoDup_remove_2 in H.
    apply H. rewrite !in_app_iff. auto. Qed.
  Lemma l_next : next_of l c = hd 0 l2.
  Proof. unfold l. rewrite next_app_r by exact l_c1. cbn. rewrite N.eqb_refl. reflexivity. Qed.
  Lemma l_prev : prev_of l c = last l1 0.
  Proof. unfold l, prev_of. rewrite prev_from_app_r by exact l_c1. cbn. rewrite N.eqb_refl. reflexivity. Qed.
  Lemma l_nz : forall b, In b l1 \/ b = c \/ In b l2 -> b <> 0.
  Proof. intros b H ->. apply NZ. unfold l. rewrite in_app_iff. cbn. firstorder. Qed.
  (** Taking [c] out *)
  Lemma rem_next : forall b, In b l -> b <> c -> next_of (l1 ++ l2) b = if b =? prev_of l c then next_of l c else next_of l b.
  Proof.
    intros b Hb NE. rewrite l_prev, l_next. unfold l in Hb. rewrite in_app_iff in Hb. destruct Hb as [Hb|[Hb|Hb]]; [|congruence|].
    - rewrite next_app_l by (auto using l_nd1). unfold l. rewrite (next_app_l l1 (c :: l2)) by (auto using l_nd1).
      destruct (b =? last l1 0); reflexivity.
    - assert (N1 : ~ In b l1) by (intro K; exact (l_12 b K Hb)). rewrite next_app_r by exact N1. unfold l. rewrite next_app_r by exact N1. cbn.
      destruct (N.eqb_spec c b); [congruence|]. destruct (N.eqb_spec b (last l1 0)) as [E|_]; [|reflexivity].
      destruct (list_eq_dec N.eq_dec l1 []) as [Z|Z]; [rewrite Z in E; cbn in E; exfalso; apply (l_nz b); auto|].
      exfalso. apply N1. rewrite E. apply last_in, Z.
  Qed.
  Lemma rem_prev : forall b, In b l -> b <> c -> prev_of (l1 ++ l2) b = if b =? next_of l c then prev_of l c else prev_of l b.
  Proof.
    intros b Hb NE. rewrite l_prev, l_next. unfold l in *. rewrite in_app_iff in Hb. destruct Hb as [Hb|[Hb|Hb]]; [|congruence|].
    - unfold prev_of. rewrite !prev_from_app_l by exact Hb. destruct (N.eqb_spec b (hd 0 l2)) as [E|_]; [|reflexivity].
      exfalso. apply (l_12 b Hb). rewrite E. apply hd_nz. rewrite <- E. apply l_nz. auto.
    - assert (N1 : ~ In b l1) by (intro K; exact (l_12 b K Hb)). unfold prev_of. rewrite !prev_from_app_r by exact N1. cbn [prev_from].
      destruct (N.eqb_spec c b); [congruence|]. destruct l2 as [|y t]; [destruct Hb|]. cbn [hd prev_from]. rewrite (N.eqb_sym b y).
      destruct (N.eqb_spec y b); reflexivity.
  Qed.
  Lemma rem_hd : hd 0 (l1 ++ l2) = if prev_of l c =? 0 then next_of l c else hd 0 l.
  Proof.
    rewrite l_prev, l_next. unfold l. apply hd_app. intro K. apply (l_nz 0); auto.
  Qed.

  Variable n : N.
  Hypothesis Nn : ~ In n l.
  Hypothesis Zn : n <> 0.

  (** [n] in the place of [c] *)
  Lemma rep_next : forall b, In b l -> b <> c -> next_of (l1 ++ n :: l2) b = if b =? prev_of l c then n else next_of l b.
  Proof.
    intros b Hb NE. rewrite l_prev. unfold l in *. rewrite in_app_iff in Hb. destruct Hb as [Hb|[Hb|Hb]]; [|congruence|].
    - rewrite !next_app_l by (auto using l_nd1). destruct (b =? last l1 0); reflexivity.
    - assert (N1 : ~ In b l1) by (intro K; exact (l_12 b K Hb)). rewrite !next_app_r by exact N1. cbn.
      destruct (N.eqb_spec c b); [congruence|]. destruct (N.eqb_spec n b) as [->|_]; [exfalso; apply Nn; rewrite in_app_iff; cbn; auto|].
      destruct (N.eqb_spec b (last l1 0)) as [E|_]; [|reflexivity].
      destruct (list_eq_dec N.eq_dec l1 []) as [Z|Z]; [rewrite Z in E; cbn in E; exfalso; apply (l_nz b); auto|].
      exfalso. apply N1. rewrite E. apply last_in, Z.
  Qed.
  Lemma rep_next_new : next_of (l1 ++ n :: l2) n = next_of l c.
  Proof. rewrite l_next. rewrite next_app_r by (intro K; apply Nn, in_or_app; auto). cbn. rewrite N.eqb_refl. reflexivity. Qed.
  Lemma rep_prev : forall b, In b l -> b <> c -> prev_of (l1 ++ n :: l2) b = if b =? next_of l c then n else prev_of l b.
  Proof.
    intros b Hb NE. rewrite l_next. unfold l in *. rewrite in_app_iff in Hb. destruct Hb as [Hb|[Hb|Hb]]; [|congruence|].
    - unfold prev_of. rewrite !prev_from_app_l by exact Hb. destruct (N.eqb_spec b (hd 0 l2)) as [E|_]; [|reflexivity].
      exfalso. apply (l_12 b Hb). rewrite E. apply hd_nz. rewrite <- E. apply l_nz. auto.
    - assert (N1 : ~ In b l1) by (intro K; exact (l_12 b K Hb)). unfold prev_of. rewrite !prev_from_app_r by exact N1. cbn [prev_from].
      destruct (N.eqb_spec c b); [congruence|]. destruct (N.eqb_spec n b) as [->|_]; [exfalso; apply Nn; rewrite in_app_iff; cbn; auto|].
      destruct l2 as [|y t]; [destruct Hb|]. cbn [hd prev_from]. rewrite (N.eqb_sym b y).
      destruct (N.eqb_spec y b); reflexivity.
  Qed.
  Lemma rep_prev_new : prev_of (l1 ++ n :: l2) n = prev_of l c.
  Proof. rewrite l_prev. unfold prev_of. rewrite prev_from_app_r by (intro K; apply Nn, in_or_app; auto). cbn. rewrite N.eqb_refl. reflexivity. Qed.
  Lemma rep_hd : hd 0 (l1 ++ n :: l2) = if prev_of l c =? 0 then n else hd 0 l.
  Proof.
    rewrite l_prev. unfold l. apply (hd_app l1 (n :: l2)). intro K. apply (l_nz 0); auto.
  Qed.

  (** [n] after [c] *)
  Lemma ins_next : forall b, In b l -> b <> c -> next_of (l1 ++ c :: n :: l2) b = next_of l b.
  Proof.
    intros b Hb NE. unfold l in *. rewrite in_app_iff in Hb. destruct Hb as [Hb|[Hb|Hb]]; [|congruence|].
    - rewrite !next_app_l by (auto using l_nd1). reflexivity.
    - assert (N1 : ~ In b l1) by (intro K; exact (l_12 b K Hb)). rewrite !next_app_r by exact N1. cbn.
      destruct (N.eqb_spec c b); [congruence|]. destruct (N.eqb_spec n b) as [->|_]; [exfalso; apply Nn; rewrite in_app_iff; cbn; auto|]. reflexivity.
  Qed.
  Lemma ins_next_c : next_of (l1 ++ c :: n :: l2) c = n.
  Proof. rewrite next_app_r by exact l_c1. cbn. rewrite N.eqb_refl. reflexivity. Qed.
  Lemma ins_next_new : next_of (l1 ++ c :: n :: l2) n = next_of l c.
  Proof.
    rewrite l_next. rewrite next_app_r by (intro K; apply Nn, in_or_app; auto). cbn.
    destruct (N.eqb_spec c n) as [E|_]; [exfalso; apply Nn; unfold l; rewrite in_app_iff; cbn; auto|]. rewrite N.eqb_refl. reflexivity.
  Qed.
  Lemma ins_prev : forall b, In b l -> prev_of (l1 ++ c :: n :: l2) b = if b =? next_of l c then n else prev_of l b.
  Proof.
    intros b Hb. rewrite l_next. unfold l in *. rewrite in_app_iff in Hb. destruct Hb as [Hb|[Hb|Hb]].
    - unfold prev_of. rewrite !prev_from_app_l by exact Hb. destruct (N.eqb_spec b (hd 0 l2)) as [E|_]; [|reflexivity].
      exfalso. apply (l_12 b Hb). rewrite E. apply hd_nz. rewrite <- E. apply l_nz. auto.
    - subst b. unfold prev_of. rewrite !prev_from_app_r by exact l_c1. cbn [prev_from]. rewrite N.eqb_refl.
      destruct (N.eqb_spec c (hd 0 l2)) as [E|_]; [|reflexivity]. exfalso. apply l_c2. rewrite E. apply hd_nz. rewrite <- E. apply l_nz. auto.
    - assert (N1 : ~ In b l1) by (intro K; exact (l_12 b K Hb)). unfold prev_of. rewrite !prev_from_app_r by exact N1. cbn [prev_from].
      destruct (N.eqb_spec c b) as [E|NE]; [exfalso; apply l_c2; rewrite E; exact Hb|]. destruct (N.eqb_spec n b) as [->|_]; [exfalso; apply Nn; rewrite in_app_iff; cbn; auto|].
      destruct l2 as [|y t]; [destruct Hb|]. cbn [hd prev_from]. rewrite (N.eqb_sym b y).
      destruct (N.eqb_spec y b); reflexivity.
  Qed.
  Lemma ins_prev_new : prev_of (l1 ++ c :: n :: l2) n = c.
  Proof.
    unfold prev_of. rewrite prev_from_app_r by (intro K; apply Nn, in_or_app; auto). cbn.
    destruct (N.eqb_spec c n) as [E|_]; [exfalso; apply Nn; unfold l; rewrite in_app_iff; cbn; auto|]. rewrite N.eqb_refl. reflexivity.
  Qed.
End L.

(** In front *)
Lemma pre_prev : forall l n b, ~ In n l -> In b l -> prev_of (n :: l) b = if b =? hd 0 l then n else prev_of l b.
Proof.
  intros l n b Nn Hb. unfold prev_of. cbn [prev_from]. destruct (N.eqb_spec n b) as [->|_]; [contradiction|].
  destruct l as [|y t]; [destruct Hb|]. cbn [prev_from hd]. rewrite (N.eqb_sym b y). destruct (y =? b); reflexivity.
Qed.
Lemma pre_next : forall l n b, ~ In n l -> In b l -> next_of (n :: l) b = next_of l b.
Proof. intros l n b Nn Hb. cbn. destruct (N.eqb_spec n b) as [->|_]; [contradiction|reflexivity]. Qed.
