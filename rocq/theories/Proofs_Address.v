From Verif Require Import Base BaseLemmas Model_ByteArray Proofs_ByteArray Model_Address Spec_Address.
From Coq Require Import ZifyBool ZifyNat Btauto.
Local Open Scope Z_scope.

(* ---------- bit strings ---------- *)
Lemma bits_length w v : length (bits w v) = w.
Proof. induction w; cbn; congruence. Qed.
Lemma bits_ext w u v : (forall i, 0 <= i < Z.of_nat w -> Z.testbit u i = Z.testbit v i) -> bits w u = bits w v.
Proof. intros H. induction w as [|w IH]; [reflexivity|]. cbn [bits]. f_equal; [apply H; lia|]. apply IH. intros i Hi. apply H. lia. Qed.
Lemma bits_split a b v : bits (a + b) v = bits a (Z.shiftr v (Z.of_nat b)) ++ bits b v.
Proof.
  induction a as [|a IH]; [reflexivity|]. cbn [bits Nat.add app]. f_equal; [|assumption].
  rewrite Z.shiftr_spec by lia. f_equal. lia.
Qed.
Lemma bits_eq w u v i : bits w u = bits w v -> 0 <= i < Z.of_nat w -> Z.testbit u i = Z.testbit v i.
Proof.
  induction w as [|w IH]; cbn [bits]; intros H Hi; [lia|]. injection H as H1 H2.
  destruct (Z.eq_dec i (Z.of_nat w)) as [->|]; [assumption|]. apply IH; [assumption|lia].
Qed.
Lemma testbit_high v w i : 0 <= v < 2 ^ w -> w <= i -> Z.testbit v i = false.
Proof.
  intros Hv Hi. destruct (Z.eq_dec v 0) as [->|]; [apply Z.bits_0|]. apply Z.bits_above_log2; [lia|].
  apply Z.log2_lt_pow2; [lia|]. eapply Z.lt_le_trans; [apply Hv|]. apply Z.pow_le_mono_r; lia.
Qed.
Lemma bits_inj w u v : 0 <= u < 2 ^ Z.of_nat w -> 0 <= v < 2 ^ Z.of_nat w -> bits w u = bits w v -> u = v.
Proof.
  intros Hu Hv H. apply Z.bits_inj'. intros i Hi. destruct (Z.lt_ge_cases i (Z.of_nat w)).
  - eapply bits_eq; eauto.
  - now rewrite !(testbit_high _ (Z.of_nat w)).
Qed.
Lemma bits_0 w : bits w 0 = repeat false w.
Proof. induction w; cbn [bits repeat]; [reflexivity|]. now rewrite Z.bits_0, IHw. Qed.
Lemma bitstring_length w l : length (bitstring w l) = (w * length l)%nat.
Proof. unfold bitstring. induction l as [|a l IH]; cbn [map concat length]; [lia|]. rewrite app_length, bits_length, IH. lia. Qed.
Lemma bitstring_app w a b : bitstring w (a ++ b) = bitstring w a ++ bitstring w b.
Proof. unfold bitstring. now rewrite map_app, concat_app. Qed.
Lemma bitstring_cons w a b : bitstring w (a :: b) = bits w a ++ bitstring w b.
Proof. reflexivity. Qed.
Definition sym_ok (w : nat) (v : Z) : Prop := 0 <= v < 2 ^ Z.of_nat w.
Lemma app_inj2 {A} (a b c d : list A) : length a = length c -> a ++ b = c ++ d -> a = c /\ b = d.
Proof.
  revert c. induction a as [|x a IH]; intros [|y c] Hl H; cbn in *; try discriminate; auto.
  injection H as -> H. destruct (IH c) as [-> ->]; auto.
Qed.
(** Reading off: a longer symbol string whose bits begin with those of [a] begins with [a]. *)
Lemma bitstring_prefix w a : forall l rest, (0 < w)%nat -> Forall (sym_ok w) a -> Forall (sym_ok w) l ->
  bitstring w l = bitstring w a ++ rest -> exists l', l = a ++ l' /\ bitstring w l' = rest.
Proof.
  induction a as [|x a IH]; intros l rest Hw Ha Hl H; [exists l; auto|].
  inversion Ha as [|? ? Hx Ha']; subst. destruct l as [|y l].
  - exfalso. apply (f_equal (@length bool)) in H. rewrite app_length, !bitstring_length in H. cbn [length] in H. lia.
  - inversion Hl as [|? ? Hy Hl']; subst. rewrite !bitstring_cons, <- app_assoc in H.
    apply app_inj2 in H; [|now rewrite !bits_length]. destruct H as [H1 H2].
    apply bits_inj in H1; [|assumption|assumption]. subst y. destruct (IH l rest Hw Ha' Hl' H2) as (l' & -> & E). exists l'. auto.
Qed.
Lemma bitstring_inj w a b : (0 < w)%nat -> Forall (sym_ok w) a -> Forall (sym_ok w) b -> bitstring w a = bitstring w b -> a = b.
Proof.
  intros Hw Ha Hb H. destruct (bitstring_prefix w a b [] Hw Ha Hb) as (l & -> & E); [now rewrite app_nil_r|].
  assert (l = []) as ->; [|now rewrite app_nil_r]. apply (f_equal (@length bool)) in E. rewrite bitstring_length in E. destruct l; [reflexivity|cbn in E; lia].
Qed.

(* ---------- convert_bits ---------- *)
Lemma land_ones_range v w : 0 <= w -> 0 <= Z.land v (2 ^ w - 1) < 2 ^ w.
Proof.
  intros Hw. replace (2 ^ w - 1) with (Z.ones w) by (rewrite Z.ones_equiv; lia). rewrite Z.land_ones by assumption.
  apply Z.mod_pos_bound. apply Z.pow_pos_nonneg; lia.
Qed.
Lemma bits_land w v m : Z.of_nat w <= m -> bits w (Z.land v (2 ^ m - 1)) = bits w v.
Proof.
  intros Hm. apply bits_ext. intros i Hi. replace (2 ^ m - 1) with (Z.ones m) by (rewrite Z.ones_equiv; lia).
  rewrite Z.land_spec, Z.ones_spec_low by lia. apply andb_true_r.
Qed.

Lemma emit_ok t : (0 < t)%nat -> forall fuel acc n ret, (n <= fuel)%nat ->
  exists n' out, cb_emit fuel acc (Z.of_nat n) (Z.of_nat t) ret = (Z.of_nat n', ret ++ out) /\ (n' < t)%nat /\
    bitstring t out ++ bits n' acc = bits n acc /\ Forall (sym_ok t) out.
Proof.
  intros Ht fuel. induction fuel as [|fuel IH]; intros acc n ret Hf.
  - assert (n = 0)%nat as -> by lia. exists 0%nat, []. cbn. rewrite app_nil_r. repeat split; auto.
  - cbn [cb_emit]. destruct (Z.leb_spec (Z.of_nat t) (Z.of_nat n)) as [Hle|Hlt].
    + cbv zeta. replace (Z.of_nat n - Z.of_nat t) with (Z.of_nat (n - t)) by lia.
      destruct (IH acc (n - t)%nat (ret ++ [Z.land (Z.shiftr acc (Z.of_nat (n - t))) (2 ^ Z.of_nat t - 1)])) as (n' & out & E & Hn & Hb & Hok); [lia|].
      exists n', (Z.land (Z.shiftr acc (Z.of_nat (n - t))) (2 ^ Z.of_nat t - 1) :: out). rewrite E, <- app_assoc. split; [reflexivity|]. split; [assumption|].
      split.
      * rewrite bitstring_cons, bits_land by lia. rewrite <- app_assoc, Hb. replace n with (t + (n - t))%nat at 3 by lia. now rewrite bits_split.
      * constructor; [|assumption]. apply land_ones_range. lia.
    + exists n, []. rewrite app_nil_r. split; [reflexivity|]. split; [lia|]. split; [reflexivity|constructor].
Qed.

Lemma shiftr_small v f : 0 <= v < 2 ^ f -> Z.shiftr v f = 0.
Proof. intros H. destruct (Z.lt_ge_cases f 0). { rewrite Z.pow_neg_r in H by lia. lia. } rewrite Z.shiftr_div_pow2 by lia. apply Z.div_small. lia. Qed.

Lemma push_bits f n m acc v : 0 <= v < 2 ^ Z.of_nat f -> Z.of_nat (n + f) <= m ->
  bits (n + f) (Z.land (Z.lor (Z.shiftl acc (Z.of_nat f)) v) (2 ^ m - 1)) = bits n acc ++ bits f v.
Proof.
  intros Hv Hm. rewrite bits_land by lia. rewrite bits_split. f_equal; apply bits_ext; intros i Hi.
  - rewrite Z.shiftr_spec, Z.lor_spec, Z.shiftl_spec by lia. rewrite (testbit_high v (Z.of_nat f)) by lia.
    rewrite orb_false_r. f_equal. lia.
  - rewrite Z.lor_spec, Z.shiftl_spec_low by lia. reflexivity.
Qed.

Lemma loop_ok f t : (0 < f)%nat -> (0 < t)%nat -> forall data acc n ret, Forall (sym_ok f) data -> (n < t)%nat ->
  exists acc' n' out, cb_loop data (Z.of_nat f) (Z.of_nat t) acc (Z.of_nat n) ret = Some (acc', Z.of_nat n', ret ++ out) /\ (n' < t)%nat /\
    bitstring t out ++ bits n' acc' = bits n acc ++ bitstring f data /\ Forall (sym_ok t) out.
Proof.
  intros Hf Ht data. induction data as [|v data IH]; intros acc n ret Hd Hn.
  - exists acc, n, []. cbn. rewrite !app_nil_r. repeat split; auto.
  - inversion Hd as [|? ? Hv Hd']; subst. cbn [cb_loop]. rewrite shiftr_small by exact Hv. cbn [Z.eqb negb]. cbv zeta.
    set (acc1 := Z.land (Z.lor (Z.shiftl acc (Z.of_nat f)) v) (2 ^ (Z.of_nat f + Z.of_nat t - 1) - 1)).
    replace (Z.of_nat n + Z.of_nat f) with (Z.of_nat (n + f)) by lia. rewrite Nat2Z.id.
    destruct (emit_ok t Ht (n + f) acc1 (n + f)%nat ret (Nat.le_refl _)) as (n1 & out1 & E1 & Hn1 & Hb1 & Ho1). rewrite E1.
    destruct (IH acc1 n1 (ret ++ out1) Hd' Hn1) as (acc' & n' & out & E & Hn' & Hb & Ho). rewrite E.
    exists acc', n', (out1 ++ out). rewrite <- app_assoc. split; [reflexivity|]. split; [assumption|]. split.
    + rewrite bitstring_app, <- app_assoc, Hb, app_assoc, Hb1. unfold acc1. rewrite push_bits by (auto; lia).
      rewrite bitstring_cons. now rewrite <- app_assoc.
    + apply Forall_app. auto.
Qed.

Lemma convert_ok f t data : (0 < f)%nat -> (0 < t)%nat -> Forall (sym_ok f) data ->
  exists out k, convert_bits data (Z.of_nat f) (Z.of_nat t) true = Some out /\ (k < t)%nat /\
    bitstring t out = bitstring f data ++ repeat false k /\ Forall (sym_ok t) out.
Proof.
  intros Hf Ht Hd. unfold convert_bits. change 0 with (Z.of_nat 0) at 2.
  destruct (loop_ok f t Hf Ht data 0 0%nat [] Hd Ht) as (acc & n & out & E & Hn & Hb & Ho). rewrite E. cbv zeta. cbn [app] in *. cbn [bits app] in Hb.
  destruct (Z.eqb_spec (Z.of_nat n) 0) as [H0|H0].
  - exists out, 0%nat. assert (n = 0)%nat as -> by lia. cbn [bits repeat] in *. rewrite app_nil_r in *. auto.
  - exists (out ++ [Z.land (Z.shiftl acc (Z.of_nat t - Z.of_nat n)) (2 ^ Z.of_nat t - 1)]), (t - n)%nat.
    split; [reflexivity|]. split; [lia|]. split.
    + rewrite bitstring_app, bitstring_cons. change (bitstring t []) with (@nil bool). rewrite app_nil_r.
      rewrite bits_land by lia. rewrite <- Hb, <- app_assoc. f_equal.
      replace t with (n + (t - n))%nat at 1 by lia. rewrite bits_split. f_equal.
      * apply bits_ext. intros i Hi. rewrite Z.shiftr_spec, Z.shiftl_spec by lia. f_equal. lia.
      * rewrite <- bits_0. apply bits_ext. intros i Hi. rewrite Z.shiftl_spec_low by lia. now rewrite Z.bits_0.
    + apply Forall_app. split; [assumption|]. constructor; [|constructor]. apply land_ones_range. lia.
Qed.

(* ---------- base32 ---------- *)
Definition sym_range : list Z := map Z.of_nat (seq 0 32).
Lemma sym_in s : 0 <= s < 32 -> In s sym_range.
Proof. intros H. unfold sym_range. apply in_map_iff. exists (Z.to_nat s). split; [lia|]. apply in_seq. lia. Qed.
Lemma sym_sweep (f : Z -> bool) : forallb f sym_range = true -> forall s, 0 <= s < 32 -> f s = true.
Proof. intros H s Hs. rewrite forallb_forall in H. apply H. now apply sym_in. Qed.

Lemma b32_total s : 0 <= s < 32 -> exists c, nth_error CHARSET (Z.to_nat s) = Some c /\ b32_char s c /\ charset_position CHARSET c = Some (Z.to_nat s) /\
  lower c = c /\ c <> 58 /\ 0 <= c < 128.
Proof.
  intros Hs.
  assert (forallb (fun s => match nth_error CHARSET (Z.to_nat s) with
     | Some c => match charset_position CHARSET c with Some k => Nat.eqb k (Z.to_nat s) | None => false end && (lower c =? c) && negb (c =? 58) && (0 <=? c) && (c <? 128)
     | None => false end) sym_range = true) as Hsw by (vm_compute; reflexivity).
  pose proof (sym_sweep _ Hsw s Hs) as H. cbv beta in H. destruct (nth_error CHARSET (Z.to_nat s)) as [c|] eqn:E; [|discriminate].
  destruct (charset_position CHARSET c) as [k|] eqn:Ek; [|discriminate]. exists c. split; [reflexivity|]. split; [split; assumption|].
  rewrite !andb_true_iff in H. destruct H as [[[[H1 H2] H3] H4] H5]. apply Nat.eqb_eq in H1. subst k. repeat split; first [reflexivity|assumption|lia].
Qed.
Lemma b32_fun s c d : b32_char s c -> b32_char s d -> c = d.
Proof. intros [_ H1] [_ H2]. congruence. Qed.
Lemma charset_pos_inv c : forall cs k, charset_position cs c = Some k -> nth_error cs k = Some c.
Proof.
  induction cs as [|x cs IH]; intros k H; [discriminate|]. cbn in H. destruct (Z.eqb_spec c x) as [->|]; [injection H as <-; reflexivity|].
  destruct (charset_position cs c) as [j|]; [|discriminate]. injection H as <-. cbn. now apply IH.
Qed.
Lemma charset_pos_sym c k : charset_position CHARSET c = Some k -> b32_char (Z.of_nat k) c.
Proof.
  intros H. apply charset_pos_inv in H. unfold b32_char. fold CHARSET. rewrite Nat2Z.id. split; [|assumption].
  assert (k < length CHARSET)%nat by (apply nth_error_Some; congruence). change (length CHARSET) with 32%nat in *. lia.
Qed.
Lemma to_b32_ok l : Forall (sym_ok 5) l -> exists cs, map_to_b32 l = Ok cs /\ Forall2 b32_char l cs.
Proof.
  induction 1 as [|s l Hs _ (cs & E & F)]; [exists []; split; [reflexivity|constructor]|].
  destruct (b32_total s Hs) as (c & Ec & Hc & _). exists (c :: cs). cbn [map_to_b32]. rewrite Ec, E. cbn. auto.
Qed.
Lemma from_b32_at_iff cs l : forall i, map_from_b32_at i cs = Ok l <-> Forall2 b32_char l cs.
Proof.
  intros i. split.
  - revert l i. induction cs as [|c cs IH]; intros l i H; cbn [map_from_b32_at] in H; [injection H as <-; constructor|].
    destruct (charset_position CHARSET c) as [k|] eqn:E; [|discriminate]. apply obind_ok in H. destruct H as (t & Ht & H). injection H as <-.
    constructor; [now apply charset_pos_sym|eauto].
  - intros H. revert i. induction H as [|s c l cs Hc _ IH]; intros i; [reflexivity|]. cbn [map_from_b32_at]. pose proof Hc as [Hs _].
    destruct (b32_total s Hs) as (c' & _ & Hc' & Ep & _). rewrite (b32_fun _ _ _ Hc Hc'). rewrite Ep, IH. cbn. rewrite Z2Nat.id by lia. reflexivity.
Qed.
Lemma from_b32_iff cs l : map_from_b32 cs = Ok l <-> Forall2 b32_char l cs.
Proof. apply from_b32_at_iff. Qed.
(** the first letter outside the alphabet *)
Definition first_bad (cs : list Z) (k : nat) (x : Z) : Prop :=
  nth_error cs k = Some x /\ (forall s, ~ b32_char s x) /\ exists l, Forall2 b32_char l (firstn k cs).
Lemma from_b32_at_total cs : forall i, (exists l, map_from_b32_at i cs = Ok l) \/
  exists k x, first_bad cs k x /\ map_from_b32_at i cs = Err (EInvalidCashAddr (AInvalidBase32Letter (i + Z.of_nat k) x)).
Proof.
  induction cs as [|c cs IH]; intros i; cbn [map_from_b32_at]; [left; eauto|]. destruct (charset_position CHARSET c) as [p|] eqn:E.
  - destruct (IH (i + 1)) as [(l & Hl)|(k & x & (H1 & H2 & l & H3) & Hk)].
    + rewrite Hl. left. cbn [obind]. eauto.
    + rewrite Hk. right. exists (S k), x. split; [|cbn [obind]; do 3 f_equal; lia]. split; [exact H1|]. split; [exact H2|]. exists (Z.of_nat p :: l). cbn [firstn].
      constructor; [now apply charset_pos_sym|exact H3].
  - right. exists O, c. split; [|do 3 f_equal; lia]. split; [reflexivity|]. split; [|exists []; constructor].
    intros s Hs. pose proof Hs as [Hr _]. destruct (b32_total s Hr) as (c' & _ & Hc' & Ep & _). rewrite (b32_fun _ _ _ Hs Hc') in E. congruence.
Qed.
Lemma from_b32_total cs : (exists l, map_from_b32 cs = Ok l) \/ exists k x, first_bad cs k x /\ map_from_b32 cs = Err (EInvalidCashAddr (AInvalidBase32Letter (Z.of_nat k) x)).
Proof. apply (from_b32_at_total cs 0). Qed.
Lemma b32_sym l cs : Forall2 b32_char l cs -> Forall (sym_ok 5) l.
Proof. induction 1 as [|s c l cs [H _] _ IH]; constructor; auto. Qed.
Lemma b32_inj l l' cs : Forall2 b32_char l cs -> Forall2 b32_char l' cs -> l = l'.
Proof. intros H1 H2. apply from_b32_iff in H1. apply from_b32_iff in H2. congruence. Qed.

(* ---------- checksum register ---------- *)
Definition M40 := 2 ^ 40.
Definition L (c : Z) : Z := register c 0.
Lemma lxor_range w a b : 0 <= w -> 0 <= a < 2 ^ w -> 0 <= b < 2 ^ w -> 0 <= Z.lxor a b < 2 ^ w.
Proof.
  intros Hw Ha Hb. assert (0 <= Z.lxor a b) as H0 by (apply Z.lxor_nonneg; tauto). split; [assumption|].
  destruct (Z.eq_dec (Z.lxor a b) 0) as [->|Hn]; [apply Z.pow_pos_nonneg; lia|]. apply Z.log2_lt_pow2; [lia|].
  destruct (Z.lt_ge_cases (Z.log2 (Z.lxor a b)) w) as [|Hge]; [assumption|exfalso].
  pose proof (Z.bit_log2 (Z.lxor a b) ltac:(lia)) as Hb2. rewrite Z.lxor_spec, !(testbit_high _ w) in Hb2 by lia. discriminate.
Qed.
Lemma land_pow2 v k : 0 <= k -> (Z.land v (2 ^ k) =? 0) = negb (Z.testbit v k).
Proof.
  intros Hk. destruct (Z.testbit v k) eqn:E; cbn [negb].
  - apply Z.eqb_neq. intros H. apply (f_equal (fun z => Z.testbit z k)) in H. rewrite Z.land_spec, Z.pow2_bits_true, E, Z.bits_0 in H by assumption. discriminate.
  - apply Z.eqb_eq. apply Z.bits_inj'. intros i Hi. rewrite Z.land_spec, Z.bits_0. destruct (Z.eq_dec i k) as [->|]; [now rewrite E|].
    rewrite Z.pow2_bits_false by lia. apply andb_false_r.
Qed.
Lemma if_lxor (b : bool) c g : (if negb b then c else Z.lxor c g) = Z.lxor c (if b then g else 0).
Proof. destruct b; cbn; [reflexivity|now rewrite Z.lxor_0_r]. Qed.

Lemma selected_eq x : selected x =
  Z.lxor (if Z.testbit x 0 then 0x98f2bc8e61 else 0) (Z.lxor (if Z.testbit x 1 then 0x79b76d99e2 else 0)
  (Z.lxor (if Z.testbit x 2 then 0xf33e5fb3c4 else 0) (Z.lxor (if Z.testbit x 3 then 0xae2eabe2a8 else 0) (if Z.testbit x 4 then 0x1e4f43e470 else 0)))).
Proof.
  unfold selected, generators. cbn [combine fold_right fst snd].
  destruct (Z.testbit x 0), (Z.testbit x 1), (Z.testbit x 2), (Z.testbit x 3), (Z.testbit x 4); rewrite ?Z.lxor_0_l, ?Z.lxor_0_r; reflexivity.
Qed.
Lemma poly_step_register c v : 0 <= c < 2 ^ 40 -> poly_step c v = register c v.
Proof.
  intros Hc. unfold poly_step, register. cbv zeta.
  assert (0 <= Z.shiftr c 35 < 32) as Hs.
  { rewrite Z.shiftr_div_pow2 by lia. split; [apply Z.div_pos; lia|]. apply Z.div_lt_upper_bound; lia. }
  rewrite Z.mod_small by lia.
  set (x := Z.shiftr c 35) in *.
  rewrite (land_pow2 x 0 ltac:(lia) : (Z.land x 1 =? 0) = _), (land_pow2 x 1 ltac:(lia) : (Z.land x 2 =? 0) = _),
    (land_pow2 x 2 ltac:(lia) : (Z.land x 4 =? 0) = _), (land_pow2 x 3 ltac:(lia) : (Z.land x 8 =? 0) = _), (land_pow2 x 4 ltac:(lia) : (Z.land x 16 =? 0) = _).
  rewrite !if_lxor. subst x.
  assert (Z.shiftl (Z.land c 0x07ffffffff) 5 = 32 * (c mod 2 ^ 35)) as ->.
  { change 0x07ffffffff with (Z.ones 35). rewrite Z.land_ones, Z.shiftl_mul_pow2 by lia. change (2 ^ 5) with 32. lia. }
  rewrite <- Z.shiftr_div_pow2 by lia. rewrite selected_eq, !Z.lxor_assoc. reflexivity.
Qed.
Lemma selected_range x : 0 <= selected x < 2 ^ 40.
Proof.
  rewrite selected_eq. repeat (apply lxor_range; [lia|destruct (Z.testbit x _); lia|]). destruct (Z.testbit x _); lia.
Qed.
Lemma register_range c v : 0 <= v < 32 -> 0 <= register c v < 2 ^ 40.
Proof.
  intros Hv. unfold register. pose proof (Z.mod_pos_bound c (2 ^ 35) ltac:(lia)). pose proof (selected_range (c / 2 ^ 35)).
  apply lxor_range; [lia|apply lxor_range; [lia| |]; change (2 ^ 40) with (32 * 2 ^ 35); lia|assumption].
Qed.
Lemma register_L c v : register c v = Z.lxor (L c) v.
Proof. unfold L, register. rewrite Z.lxor_0_r, !Z.lxor_assoc. f_equal. apply Z.lxor_comm. Qed.
Lemma L_range c : 0 <= L c < 2 ^ 40.
Proof. apply register_range. lia. Qed.
Lemma if_xorb (a b : bool) g : (if xorb a b then g else 0) = Z.lxor (if a then g else 0) (if b then g else 0).
Proof. destruct a, b; cbn [xorb]; rewrite ?Z.lxor_0_l, ?Z.lxor_0_r, ?Z.lxor_nilpotent; reflexivity. Qed.
Lemma selected_lin x y : selected (Z.lxor x y) = Z.lxor (selected x) (selected y).
Proof.
  rewrite !selected_eq, !Z.lxor_spec, !if_xorb. apply Z.bits_inj'. intros i Hi. rewrite !Z.lxor_spec. btauto.
Qed.
Lemma mod_lxor a b k : 0 <= k -> (Z.lxor a b) mod 2 ^ k = Z.lxor (a mod 2 ^ k) (b mod 2 ^ k).
Proof.
  intros Hk. rewrite <- !Z.land_ones by assumption. apply Z.bits_inj'. intros i Hi.
  rewrite !Z.lxor_spec, !Z.land_spec, !Z.lxor_spec. destruct (Z.testbit a i), (Z.testbit b i), (Z.testbit (Z.ones k) i); reflexivity.
Qed.
Lemma mul32_lxor a b : 32 * Z.lxor a b = Z.lxor (32 * a) (32 * b).
Proof. rewrite !(Z.mul_comm 32). change 32 with (2 ^ 5). rewrite <- !Z.shiftl_mul_pow2 by lia. apply Z.shiftl_lxor. Qed.
Lemma div_lxor a b k : 0 <= k -> Z.lxor a b / 2 ^ k = Z.lxor (a / 2 ^ k) (b / 2 ^ k).
Proof. intros Hk. rewrite <- !Z.shiftr_div_pow2 by assumption. apply Z.shiftr_lxor. Qed.
Lemma L_lin a b : L (Z.lxor a b) = Z.lxor (L a) (L b).
Proof.
  unfold L, register. rewrite mod_lxor, mul32_lxor, div_lxor, selected_lin by lia. rewrite !Z.lxor_0_r.
  set (p := 32 * _). set (q := 32 * _). set (r := selected _). set (s := selected _).
  apply Z.bits_inj'. intros i Hi. rewrite !Z.lxor_spec. destruct (Z.testbit p i), (Z.testbit q i), (Z.testbit r i), (Z.testbit s i); reflexivity.
Qed.
Lemma selected_low x : 0 <= x < 32 -> selected x mod 32 = x.
Proof.
  intros Hx. assert (forallb (fun x => selected x mod 32 =? x) sym_range = true) as H by (vm_compute; reflexivity).
  pose proof (sym_sweep _ H x Hx) as H2. cbv beta in H2. lia.
Qed.
Lemma L_inj0 a : 0 <= a < 2 ^ 40 -> L a = 0 -> a = 0.
Proof.
  intros Ha H. unfold L, register in H. rewrite Z.lxor_0_r in H. apply Z.lxor_eq in H.
  assert (0 <= a / 2 ^ 35 < 32) as Hq by (split; [apply Z.div_pos; lia|apply Z.div_lt_upper_bound; lia]).
  pose proof (selected_low _ Hq) as Hl. rewrite <- H in Hl. rewrite Z.mul_comm, Z.mod_mul in Hl by lia.
  rewrite <- Hl in H. change (selected 0) with 0 in H. pose proof (Z.div_mod a (2 ^ 35)). lia.
Qed.
Fixpoint Lpow (n : nat) (c : Z) : Z := match n with O => c | S k => Lpow k (L c) end.
Lemma Lpow_range n : forall c, 0 <= c < 2 ^ 40 -> 0 <= Lpow n c < 2 ^ 40.
Proof. induction n as [|n IH]; intros c Hc; cbn; [assumption|]. apply IH, L_range. Qed.
Lemma Lpow_lin n : forall a b, Lpow n (Z.lxor a b) = Z.lxor (Lpow n a) (Lpow n b).
Proof. induction n as [|n IH]; intros a b; cbn; [reflexivity|]. now rewrite L_lin, IH. Qed.
Lemma Lpow_inj0 n : forall a, 0 <= a < 2 ^ 40 -> Lpow n a = 0 -> a = 0.
Proof. induction n as [|n IH]; intros a Ha H; cbn in H; [assumption|]. apply L_inj0; [assumption|]. apply IH; [apply L_range|assumption]. Qed.

(** Value of symbols fed in after a start state: superposition. *)
Lemma fold_lin vs : forall c d, fold_left register vs (Z.lxor c d) = Z.lxor (fold_left register vs c) (Lpow (length vs) d).
Proof.
  induction vs as [|v vs IH]; intros c d; [reflexivity|]. cbn [fold_left length Lpow].
  rewrite <- IH. f_equal. rewrite !register_L, L_lin, !Z.lxor_assoc. f_equal. apply Z.lxor_comm.
Qed.
(** Up to 8 symbols fed into the zero register just shift in. *)
Fixpoint be32 (vs : list Z) (acc : Z) : Z := match vs with [] => acc | v :: r => be32 r (32 * acc + v) end.
Lemma add_lxor_low a v : 0 <= a -> 0 <= v < 32 -> Z.lxor (32 * a) v = 32 * a + v.
Proof.
  intros Ha Hv. assert (Z.land (32 * a) v = 0) as E.
  { apply Z.bits_inj'. intros i Hi. rewrite Z.land_spec, Z.bits_0. destruct (Z.lt_ge_cases i 5).
    - replace (32 * a) with (Z.shiftl a 5) by (rewrite Z.shiftl_mul_pow2 by lia; change (2 ^ 5) with 32; lia). rewrite Z.shiftl_spec_low by lia. reflexivity.
    - rewrite (testbit_high v 5) by (change (2 ^ 5) with 32; lia). apply andb_false_r. }
  rewrite <- Z.add_nocarry_lxor by assumption. reflexivity.
Qed.
Lemma be32_range vs : forall acc, 0 <= acc -> Forall (sym_ok 5) vs -> acc * 32 ^ zlen vs <= be32 vs acc < (acc + 1) * 32 ^ zlen vs.
Proof.
  induction vs as [|v vs IH]; intros acc Ha Hv; [change (zlen []) with 0; cbn; lia|].
  inversion Hv as [|? ? H1 H2]; subst. unfold sym_ok in H1. change (2 ^ Z.of_nat 5) with 32 in H1. cbn [be32]. rewrite zlen_cons. specialize (IH (32 * acc + v) ltac:(lia) H2).
  replace (32 ^ (1 + zlen vs)) with (32 * 32 ^ zlen vs) by (rewrite Z.pow_add_r by (pose proof (zlen_nonneg vs); lia); lia).
  assert (0 < 32 ^ zlen vs) by (apply Z.pow_pos_nonneg; [lia|apply zlen_nonneg]). nia.
Qed.
Lemma register_small c v : 0 <= c < 2 ^ 35 -> 0 <= v < 32 -> register c v = 32 * c + v.
Proof.
  intros Hc Hv. unfold register. rewrite Z.mod_small, Z.div_small by lia. change (selected 0) with 0. rewrite Z.lxor_0_r. apply add_lxor_low; lia.
Qed.
Lemma fold_small vs : forall c, 0 <= c -> Forall (sym_ok 5) vs -> (c + 1) * 32 ^ zlen vs <= 2 ^ 40 -> fold_left register vs c = be32 vs c.
Proof.
  induction vs as [|v vs IH]; intros c Hc Hv Hb; [reflexivity|]. inversion Hv as [|? ? H1 H2]; subst. unfold sym_ok in H1. change (2 ^ Z.of_nat 5) with 32 in H1.
  rewrite zlen_cons in Hb. replace (32 ^ (1 + zlen vs)) with (32 * 32 ^ zlen vs) in Hb by (rewrite Z.pow_add_r by (pose proof (zlen_nonneg vs); lia); lia).
  assert (0 < 32 ^ zlen vs) by (apply Z.pow_pos_nonneg; [lia|apply zlen_nonneg]).
  cbn [fold_left be32]. rewrite register_small; [|change (2 ^ 40) with (32 * 2 ^ 35) in Hb; nia|assumption]. apply IH; [lia|assumption|]. nia.
Qed.
(** Feeding at most 8 symbols [vs] into register [c]. *)
Lemma fold_burst vs c : (length vs <= 8)%nat -> Forall (sym_ok 5) vs -> fold_left register vs c = Z.lxor (Lpow (length vs) c) (be32 vs 0).
Proof.
  intros Hl Hv. replace c with (Z.lxor 0 c) at 1 by apply Z.lxor_0_l. rewrite fold_lin, Z.lxor_comm. f_equal.
  apply fold_small; [lia|assumption|]. rewrite Z.mul_1_l. replace (2 ^ 40) with (32 ^ 8) by reflexivity. apply Z.pow_le_mono_r; [lia|]. unfold zlen. lia.
Qed.
Lemma be32_inj vs : forall ws a b, length vs = length ws -> Forall (sym_ok 5) vs -> Forall (sym_ok 5) ws -> 0 <= a -> 0 <= b ->
  be32 vs a = be32 ws b -> vs = ws /\ a = b.
Proof.
  induction vs as [|v vs IH]; intros [|w ws] a b Hl Hv Hw Ha Hb H; try discriminate; [cbn in H; auto|].
  inversion Hv as [|? ? V1 V2]; inversion Hw as [|? ? W1 W2]; subst. unfold sym_ok in *. change (2 ^ Z.of_nat 5) with 32 in *. cbn [be32] in H.
  destruct (IH ws (32 * a + v) (32 * b + w)) as [-> E]; auto; [lia|lia|]. split; [f_equal; lia|lia].
Qed.

Lemma fold_app {A B} (f : A -> B -> A) l m a : fold_left f (l ++ m) a = fold_left f m (fold_left f l a).
Proof. apply fold_left_app. Qed.
Lemma fold_range vs : forall c, 0 <= c < 2 ^ 40 -> Forall (sym_ok 5) vs -> 0 <= fold_left register vs c < 2 ^ 40.
Proof. induction vs as [|v vs IH]; intros c Hc Hv; [assumption|]. inversion Hv as [|? ? V1 V2]; subst. cbn. apply IH; [now apply register_range|assumption]. Qed.
Lemma fold_poly vs : forall c, 0 <= c < 2 ^ 40 -> Forall (sym_ok 5) vs -> fold_left poly_step vs c = fold_left register vs c.
Proof.
  induction vs as [|v vs IH]; intros c Hc Hv; [reflexivity|]. inversion Hv as [|? ? V1 V2]; subst. cbn [fold_left]. rewrite poly_step_register by assumption.
  apply IH; [now apply register_range|assumption].
Qed.
Lemma prefix_syms p : map (fun x => Z.land x 31) p = map (fun x => x mod 32) p.
Proof. apply map_ext. intros x. change 31 with (Z.ones 5). rewrite Z.land_ones by lia. reflexivity. Qed.
Lemma prefix_syms_ok p : Forall (sym_ok 5) (map (fun x => x mod 32) p ++ [0]).
Proof.
  apply Forall_app. split; [|constructor; [unfold sym_ok; cbn; lia|constructor]]. apply Forall_map. apply Forall_forall. intros x _. unfold sym_ok.
  change (2 ^ Z.of_nat 5) with 32. apply Z.mod_pos_bound. lia.
Qed.
Lemma poly_mod_rem p vs : Forall (sym_ok 5) vs -> poly_mod (prefix_symbols p ++ vs) = Z.lxor (remainder p vs) 1.
Proof.
  intros Hv. unfold poly_mod, remainder, prefix_symbols. rewrite prefix_syms. rewrite fold_poly; [now rewrite app_assoc|lia|].
  apply Forall_app. split; [apply prefix_syms_ok|assumption].
Qed.
Lemma remainder_app p a b : remainder p (a ++ b) = fold_left register b (remainder p a).
Proof. unfold remainder. rewrite !app_assoc, fold_left_app. now rewrite <- !app_assoc. Qed.
Lemma remainder_range p vs : Forall (sym_ok 5) vs -> 0 <= remainder p vs < 2 ^ 40.
Proof. intros H. unfold remainder. apply fold_range; [lia|]. rewrite app_assoc. apply Forall_app. split; [apply prefix_syms_ok|assumption]. Qed.
Lemma verify_iff p vs : Forall (sym_ok 5) vs -> (verify_checksum p vs = true <-> remainder p vs = 1).
Proof.
  intros H. unfold verify_checksum. rewrite poly_mod_rem by assumption. rewrite Z.eqb_eq. split; [apply Z.lxor_eq|intros ->; reflexivity].
Qed.

Fixpoint digs (n : nat) (P : Z) : list Z := match n with O => [] | S k => digs k (P / 32) ++ [P mod 32] end.
Lemma be32_snoc l d : forall a, be32 (l ++ [d]) a = 32 * be32 l a + d.
Proof. induction l as [|x l IH]; intros a; [reflexivity|]. cbn [app be32]. apply IH. Qed.
Lemma be32_digs n : forall P, 0 <= P < 32 ^ Z.of_nat n -> be32 (digs n P) 0 = P.
Proof.
  induction n as [|n IH]; intros P HP; [cbn in *; lia|]. cbn [digs]. rewrite be32_snoc. rewrite IH.
  - symmetry. apply Z.div_mod. lia.
  - rewrite Nat2Z.inj_succ, Z.pow_succ_r in HP by lia. split; [apply Z.div_pos; lia|apply Z.div_lt_upper_bound; lia].
Qed.
Lemma digs_ok n : forall P, Forall (sym_ok 5) (digs n P).
Proof.
  induction n as [|n IH]; intros P; cbn [digs]; [constructor|]. apply Forall_app. split; [apply IH|]. constructor; [|constructor].
  unfold sym_ok. change (2 ^ Z.of_nat 5) with 32. apply Z.mod_pos_bound. lia.
Qed.
Lemma digits40 P : 0 <= P < 2 ^ 40 ->
  let cs := map (fun i => Z.land (Z.shiftr P (5 * (7 - i))) 31) [0;1;2;3;4;5;6;7] in
  Forall (sym_ok 5) cs /\ be32 cs 0 = P.
Proof.
  intros HP cs. assert (cs = digs 8 P) as ->; [|split; [apply digs_ok|apply be32_digs; exact HP]].
  assert (forall k, 0 <= k -> Z.land (Z.shiftr P k) 31 = (P / 2 ^ k) mod 32) as E.
  { intros k Hk. change 31 with (Z.ones 5). rewrite Z.land_ones, Z.shiftr_div_pow2 by lia. reflexivity. }
  assert (forall k, 0 <= k -> P / 2 ^ (5 + k) = P / 2 ^ k / 32) as D.
  { intros k Hk. rewrite Z.div_div by (try apply Z.pow_pos_nonneg; lia). f_equal. rewrite Z.pow_add_r by lia. apply Z.mul_comm. }
  unfold cs. cbn [map digs app]. rewrite !E by lia.
  change (5 * (7 - 0)) with (5 + (5 + (5 + (5 + (5 + (5 + (5 + 0))))))). change (5 * (7 - 1)) with (5 + (5 + (5 + (5 + (5 + (5 + 0)))))).
  change (5 * (7 - 2)) with (5 + (5 + (5 + (5 + (5 + 0))))). change (5 * (7 - 3)) with (5 + (5 + (5 + (5 + 0)))).
  change (5 * (7 - 4)) with (5 + (5 + (5 + 0))). change (5 * (7 - 5)) with (5 + (5 + 0)). change (5 * (7 - 6)) with (5 + 0). change (5 * (7 - 7)) with 0.
  rewrite !D by lia. change (2 ^ 0) with 1. rewrite Z.div_1_r. reflexivity.
Qed.

Lemma checksum_ok p payload : Forall (sym_ok 5) payload ->
  length (calculate_checksum p payload) = 8%nat /\ Forall (sym_ok 5) (calculate_checksum p payload) /\
  remainder p (payload ++ calculate_checksum p payload) = 1.
Proof.
  intros Hp. split; [reflexivity|]. unfold calculate_checksum. cbv zeta.
  assert (Forall (sym_ok 5) [0;0;0;0;0;0;0;0]) as H8 by (repeat constructor; unfold sym_ok; cbn; lia).
  assert (Forall (sym_ok 5) (payload ++ [0;0;0;0;0;0;0;0])) as Hp8 by (apply Forall_app; auto).
  rewrite poly_mod_rem by assumption. rewrite remainder_app. set (c := remainder p payload). rewrite fold_burst by (auto; cbn; lia).
  change (be32 [0;0;0;0;0;0;0;0] 0) with 0. rewrite Z.lxor_0_r. change (length [0;0;0;0;0;0;0;0]) with 8%nat.
  assert (0 <= c < 2 ^ 40) as Hc by now apply remainder_range. pose proof (Lpow_range 8 c Hc) as HL.
  pose proof (lxor_range 40 _ 1 ltac:(lia) HL ltac:(lia)) as HP.
  destruct (digits40 (Z.lxor (Lpow 8 c) 1) HP) as [H1 H2]. split; [exact H1|].
  rewrite remainder_app, fold_burst by (auto; cbn; lia). rewrite H2. fold c. cbn [length map].
  rewrite <- Z.lxor_assoc, Z.lxor_nilpotent, Z.lxor_0_l. reflexivity.
Qed.
(** The checksum symbols are determined by the rest. *)
Lemma checksum_unique p payload a b : Forall (sym_ok 5) payload -> Forall (sym_ok 5) a -> Forall (sym_ok 5) b -> length a = 8%nat -> length b = 8%nat ->
  remainder p (payload ++ a) = 1 -> remainder p (payload ++ b) = 1 -> a = b.
Proof.
  intros Hp Ha Hb La Lb H1 H2. rewrite remainder_app, fold_burst in H1, H2 by (auto; lia). rewrite La in H1. rewrite Lb in H2. rewrite <- H2 in H1.
  apply (f_equal (Z.lxor (Lpow 8 (remainder p payload)))) in H1. rewrite <- !Z.lxor_assoc, Z.lxor_nilpotent, !Z.lxor_0_l in H1.
  apply be32_inj in H1; auto; [tauto|lia|lia|lia].
Qed.
