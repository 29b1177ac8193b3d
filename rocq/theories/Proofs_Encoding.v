From Verif Require Import Base BaseLemmas Model_Encoding Spec_Encoding.
From Coq Require Import ZifyBool ZifyNat.
Local Open Scope Z_scope.

(* ---------- var ints ---------- *)
Lemma read_le_app n f rest : length f = n -> read_le n (f ++ rest) = Ok (le_value f, rest).
Proof.
  intros <-. unfold read_le. rewrite app_length.
  destruct (Nat.ltb_spec (length f + length rest) (length f)); [lia|].
  now rewrite firstn_app_exact, skipn_app_exact.
Qed.

Lemma read_le_inv n bs v rest : read_le n bs = Ok (v, rest) ->
  exists f, length f = n /\ bs = f ++ rest /\ v = le_value f.
Proof.
  unfold read_le. destruct (Nat.ltb_spec (length bs) n) as [|Hn]; [discriminate|].
  intros H; injection H as <- <-. exists (firstn n bs). repeat split.
  - apply firstn_length_le. lia.
  - symmetry; apply firstn_skipn.
Qed.

Lemma read_le_cases n bs : read_le n bs = Err EEof \/ exists v r, read_le n bs = Ok (v, r).
Proof. unfold read_le. destruct (Nat.ltb _ _); eauto. Qed.

Lemma varint_read n f rest : is_varint n f -> read_var_int (f ++ rest) = Ok (n, rest).
Proof.
  intros H; destruct H as [Hn|bs Hb Hl Hv|bs Hb Hl Hv|bs Hb Hl Hv]; unfold read_var_int.
  - rewrite (read_le_app 1 [n]) by reflexivity. cbn [obind le_value].
    replace (n + 256 * 0) with n by lia. destruct (Z.leb_spec n 0xfc); [reflexivity|lia].
  - change ((253 :: bs) ++ rest) with ([253] ++ (bs ++ rest)).
    rewrite (read_le_app 1 [253]) by reflexivity. cbn -[read_le].
    rewrite read_le_app by assumption. now rewrite Hv.
  - change ((254 :: bs) ++ rest) with ([254] ++ (bs ++ rest)).
    rewrite (read_le_app 1 [254]) by reflexivity. cbn -[read_le].
    rewrite read_le_app by assumption. now rewrite Hv.
  - change ((255 :: bs) ++ rest) with ([255] ++ (bs ++ rest)).
    rewrite (read_le_app 1 [255]) by reflexivity. cbn -[read_le].
    rewrite read_le_app by assumption. now rewrite Hv.
Qed.

Lemma varint_read_inv n bs rest : bytes_ok bs -> read_var_int bs = Ok (n, rest) ->
  exists f, is_varint n f /\ bs = f ++ rest.
Proof.
  intros Hok H. unfold read_var_int in H. apply obind_ok in H.
  destruct H as ((b, r) & H1 & H2). apply read_le_inv in H1.
  destruct H1 as (f & Hl & -> & Hb). destruct f as [|x [|y f]]; try discriminate Hl.
  cbn [le_value] in Hb. replace (x + 256 * 0) with x in Hb by lia. subst b.
  change ([x] ++ r) with (x :: r) in *. apply bytes_ok_cons in Hok. destruct Hok as [Hx Hr].
  unfold byte_ok in Hx.
  destruct (Z.leb_spec x 0xfc).
  { injection H2 as <- <-. exists [x]. split; [constructor; lia|reflexivity]. }
  destruct (Z.eqb_spec x 0xfd) as [->|].
  { apply read_le_inv in H2. destruct H2 as (f & Hl2 & -> & ->). apply bytes_ok_app in Hr.
    exists (253 :: f). split; [constructor; tauto|reflexivity]. }
  destruct (Z.eqb_spec x 0xfe) as [->|].
  { apply read_le_inv in H2. destruct H2 as (f & Hl2 & -> & ->). apply bytes_ok_app in Hr.
    exists (254 :: f). split; [constructor; tauto|reflexivity]. }
  assert (x = 255) as -> by lia.
  apply read_le_inv in H2. destruct H2 as (f & Hl2 & -> & ->). apply bytes_ok_app in Hr.
  exists (255 :: f). split; [constructor; tauto|reflexivity].
Qed.

Lemma read_var_int_spec bs n rest : bytes_ok bs ->
  (read_var_int bs = Ok (n, rest) <-> exists f, is_varint n f /\ bs = f ++ rest).
Proof.
  intros Hok; split; [now apply varint_read_inv|].
  intros (f & Hf & ->). now apply varint_read.
Qed.

Lemma read_var_int_total bs : (exists n rest, read_var_int bs = Ok (n, rest)) \/ read_var_int bs = Err EEof.
Proof.
  unfold read_var_int. destruct (read_le_cases 1 bs) as [->|(v & r & ->)]; [now right|]. cbn [obind].
  destruct (v <=? 0xfc); [eauto|].
  destruct (v =? 0xfd); [destruct (read_le_cases 2 r) as [->|(? & ? & ->)]; eauto|].
  destruct (v =? 0xfe); [destruct (read_le_cases 4 r) as [->|(? & ? & ->)]; eauto|].
  destruct (read_le_cases 8 r) as [->|(? & ? & ->)]; eauto.
Qed.

Lemma encode_var_int_form n : u64_ok n -> is_varint n (encode_var_int n).
Proof.
  unfold u64_ok; intros Hn. unfold encode_var_int.
  destruct (Z.leb_spec n 0xfc).
  { cbn [le_bytes]. rewrite Z.mod_small by lia. constructor; lia. }
  destruct (Z.leb_spec n 0xffff).
  { constructor; [apply le_bytes_ok|apply le_bytes_length|apply le_value_bytes_small; cbn; lia]. }
  destruct (Z.leb_spec n 0xffffffff).
  { constructor; [apply le_bytes_ok|apply le_bytes_length|apply le_value_bytes_small; cbn; lia]. }
  constructor; [apply le_bytes_ok|apply le_bytes_length|apply le_value_bytes_small; cbn; lia].
Qed.

Lemma encode_var_int_ok n : u64_ok n -> bytes_ok (encode_var_int n).
Proof.
  intros H. unfold encode_var_int. unfold u64_ok in H.
  repeat match goal with |- context [if ?c then _ else _] => destruct c end;
    try apply le_bytes_ok; apply bytes_ok_cons; split; try apply le_bytes_ok; unfold byte_ok; lia.
Qed.

Lemma var_int_roundtrip n rest : u64_ok n -> read_var_int (encode_var_int n ++ rest) = Ok (n, rest).
Proof. intros H. apply varint_read. now apply encode_var_int_form. Qed.

Lemma varint_len n f : is_varint n f -> 
  match f with [_] => n <= 252 | _ => True end /\
  (length f = 1%nat /\ n <= 252 \/ length f = 3%nat /\ n < 2^16 \/ length f = 5%nat /\ n < 2^32 \/ length f = 9%nat).
Proof.
  intros H; destruct H as [Hn|bs Hb Hl Hv|bs Hb Hl Hv|bs Hb Hl Hv].
  - split; [lia|]. left. cbn. lia.
  - pose proof (le_value_bound bs Hb) as B. unfold zlen in B. rewrite Hl in B.
    change (2 ^ (8 * Z.of_nat 2)) with (2^16) in B. split; [destruct bs; [discriminate Hl|exact I]|].
    right; left. cbn [length]. lia.
  - pose proof (le_value_bound bs Hb) as B. unfold zlen in B. rewrite Hl in B.
    change (2 ^ (8 * Z.of_nat 4)) with (2^32) in B. split; [destruct bs; [discriminate Hl|exact I]|].
    right; right; left. cbn [length]. lia.
  - split; [destruct bs; [discriminate Hl|exact I]|]. right; right; right. cbn [length]. lia.
Qed.

Lemma encode_var_int_shortest n f : u64_ok n -> is_varint n f ->
  (length (encode_var_int n) <= length f)%nat.
Proof.
  intros Hn Hf. apply varint_len in Hf. destruct Hf as [_ Hf].
  unfold encode_var_int.
  destruct (Z.leb_spec n 0xfc); [rewrite le_bytes_length; lia|].
  destruct (Z.leb_spec n 0xffff); [cbn [length]; rewrite le_bytes_length; lia|].
  destruct (Z.leb_spec n 0xffffffff); cbn [length]; rewrite le_bytes_length; lia.
Qed.

Lemma encode_var_int_prefix_free n m r s : u64_ok n -> u64_ok m ->
  encode_var_int n ++ r = encode_var_int m ++ s -> n = m /\ r = s.
Proof.
  intros Hn Hm E. pose proof (var_int_roundtrip n r Hn) as A. rewrite E in A.
  rewrite var_int_roundtrip in A by assumption. injection A as -> ->. auto.
Qed.

(** Size of the written form (used by the fee estimate). *)
Lemma encode_var_int_len n :
  zlen (encode_var_int n) = if n <=? 0xfc then 1 else if n <=? 0xffff then 3 else if n <=? 0xffffffff then 5 else 9.
Proof.
  unfold encode_var_int. repeat match goal with |- context [if ?c then _ else _] => destruct c end;
  rewrite ?zlen_cons, le_bytes_zlen; reflexivity.
Qed.

(* ---------- bit facts about bytes ---------- *)
Lemma land7f b : byte_ok b -> Z.land b 0x7f = b mod 128.
Proof. intros _. change 0x7f with (Z.ones 7). rewrite Z.land_ones by lia. reflexivity. Qed.
Lemma land80_0 b : byte_ok b -> (Z.land b 0x80 =? 0) = (b <? 128).
Proof.
  intros H. apply eqb_prop.
  apply (byte_sweep (fun b => Bool.eqb (Z.land b 0x80 =? 0) (b <? 128))); [vm_compute; reflexivity|exact H].
Qed.
Lemma land80_val b : byte_ok b -> Z.land b 0x80 = if b <? 128 then 0 else 128.
Proof.
  intros H. apply Z.eqb_eq.
  apply (byte_sweep (fun b => Z.land b 0x80 =? if b <? 128 then 0 else 128)); [vm_compute; reflexivity|exact H].
Qed.
Lemma lxor80 b : byte_ok b -> 128 <= b -> Z.lxor b 128 = b - 128.
Proof.
  intros H Hb.
  assert (G : (b <? 128) || (Z.lxor b 128 =? b - 128) = true).
  { apply (byte_sweep (fun b => (b <? 128) || (Z.lxor b 128 =? b - 128))); [vm_compute; reflexivity|exact H]. }
  lia.
Qed.
Lemma lor80 b : byte_ok b -> b < 128 -> Z.lor b 128 = b + 128.
Proof.
  intros H Hb.
  assert (G : (128 <=? b) || (Z.lor b 128 =? b + 128) = true).
  { apply (byte_sweep (fun b => (128 <=? b) || (Z.lor b 128 =? b + 128))); [vm_compute; reflexivity|exact H]. }
  lia.
Qed.

(* ---------- script numbers ---------- *)
Lemma script_num_snoc i b : bytes_ok i -> byte_ok b ->
  script_num (i ++ [b]) =
  if b <? 128 then le_value i + 2 ^ (8 * zlen i) * b
  else - (le_value i + 2 ^ (8 * zlen i) * (b - 128)).
Proof.
  intros Hi Hb. unfold script_num.
  destruct (i ++ [b]) as [|x xs] eqn:E; [destruct i; discriminate E|]. rewrite <- E. clear E x xs.
  rewrite le_value_app, zlen_app. cbn [le_value].
  pose proof (le_value_bound i Hi) as Bi. unfold byte_ok in Hb.
  change (zlen [b]) with 1. pose proof (zlen_nonneg i) as Ni.
  replace (8 * (zlen i + 1) - 1) with (8 * zlen i + 7) by lia.
  rewrite Z.pow_add_r by lia. change (2 ^ 7) with 128.
  set (P := 2 ^ (8 * zlen i)) in *.
  destruct (Z.ltb_spec b 128);
  destruct (Z.ltb_spec (le_value i + P * (b + 256 * 0)) (P * 128)); nia.
Qed.

Lemma nth_snoc {A} (i : list A) b d : nth (length (i ++ [b]) - 1) (i ++ [b]) d = b.
Proof. rewrite app_length. cbn [length]. replace (length i + 1 - 1)%nat with (length i) by lia. now rewrite nth_middle. Qed.
Lemma nth_snoc2 {A} (i : list A) p b d : nth (length ((i ++ [p]) ++ [b]) - 2) ((i ++ [p]) ++ [b]) d = p.
Proof.
  rewrite !app_length. cbn [length]. replace (length i + 1 + 1 - 2)%nat with (length i) by lia.
  rewrite <- app_assoc. cbn [app]. now rewrite nth_middle.
Qed.

Lemma app_cons_nil {A} (l : list A) x t : l ++ x :: t = (l ++ [x]) ++ t.
Proof. now rewrite <- app_assoc. Qed.

Lemma em_loop_spec last : last = 0 \/ last = 128 -> forall pre tail, bytes_ok pre -> tail <> [] ->
  let r := em_loop (pre ++ tail) last (length pre) in
  script_num r = (if last =? 0 then le_value pre else - le_value pre) /\
  minimal_num r /\ bytes_ok r /\ (length r <= length pre + 1)%nat.
Proof.
  intros Hlast pre. induction pre as [|x q IH] using rev_ind; intros tail Hok Htail; cbn zeta.
  - cbn. split; [destruct (last =? 0); reflexivity|]. split; [now left|]. split; [constructor|lia].
  - rewrite app_length. cbn [length]. replace (length q + 1)%nat with (S (length q)) by lia.
    apply bytes_ok_app in Hok. destruct Hok as [Hq Hx]. apply bytes_ok_cons in Hx. destruct Hx as [Hx _].
    cbn [em_loop]. rewrite <- app_assoc. cbn [app]. rewrite nth_middle.
    destruct (Z.eqb_spec x 0) as [->|Hx0].
    + specialize (IH (0 :: tail) Hq ltac:(discriminate)). cbn zeta in IH.
      destruct IH as (A & B & C & D).
      rewrite A. repeat split; auto; [|lia].
      rewrite le_value_app. cbn [le_value]. destruct (last =? 0); lia.
    + rewrite land80_0 by exact Hx.
      destruct (Z.ltb_spec x 128) as [Hs|Hs].
      * rewrite upd_app_mid, (app_cons_nil q).
        replace (S (length q)) with (length (q ++ [Z.lor x last])) by (rewrite app_length; cbn; lia).
        rewrite firstn_app_exact.
        assert (Hbo : byte_ok (Z.lor x last) /\
           (if last =? 0 then Z.lor x last = x else Z.lor x last = x + 128)).
        { unfold byte_ok in *. destruct Hlast as [-> | ->].
          - rewrite Z.lor_0_r. cbn. lia.
          - rewrite lor80 by (unfold byte_ok; lia). cbn. lia. }
        destruct Hbo as [Hbo Hv].
        rewrite script_num_snoc by assumption. rewrite le_value_app. cbn [le_value].
        unfold byte_ok in Hx. repeat split.
        -- destruct Hlast as [-> | ->]; cbn [Z.eqb] in *; rewrite Hv;
           destruct (Z.ltb_spec x 128); destruct (Z.ltb_spec (x + 128) 128); lia.
        -- right. exists q, (Z.lor x last). split; [reflexivity|]. left.
           destruct Hlast as [-> | ->]; cbn [Z.eqb] in Hv; rewrite Hv; zdm.
        -- apply bytes_ok_app; split; [assumption|]. apply bytes_ok_cons; split; [assumption|constructor].
        -- rewrite app_length. cbn. lia.
      * destruct tail as [|t0 tail]; [congruence|].
        rewrite (app_cons_nil q x (t0 :: tail)).
        replace (S (length q)) with (length (q ++ [x])) by (rewrite app_length; cbn; lia).
        rewrite upd_app_mid, (app_cons_nil (q ++ [x])).
        replace (S (length (q ++ [x]))) with (length ((q ++ [x]) ++ [last])) by (rewrite app_length; cbn; lia).
        rewrite firstn_app_exact.
        assert (bytes_ok (q ++ [x])) as Hqx.
        { apply bytes_ok_app; split; [assumption|]. apply bytes_ok_cons; split; [assumption|constructor]. }
        assert (byte_ok last) as Hlb by (unfold byte_ok; lia).
        rewrite script_num_snoc by assumption.
        repeat split.
        -- destruct Hlast as [-> | ->]; cbn [Z.eqb Z.ltb Z.compare Pos.compare Pos.compare_cont]; lia.
        -- right. exists (q ++ [x]), last. split; [reflexivity|]. right. exists q, x. auto.
        -- apply bytes_ok_app; split; [assumption|]. apply bytes_ok_cons; split; [assumption|constructor].
        -- rewrite !app_length. cbn. lia.
Qed.

Lemma encode_minimally_snoc i last :
  encode_minimally (i ++ [last]) =
  if negb (Z.land last 0x7f =? 0) then i ++ [last]
  else match i with
       | [] => []
       | _ => if negb (Z.land (nth (length (i ++ [last]) - 2) (i ++ [last]) 0) 0x80 =? 0) then i ++ [last]
              else em_loop (i ++ [last]) last (length i)
       end.
Proof.
  unfold encode_minimally.
  destruct (i ++ [last]) as [|x xs] eqn:E; [destruct i; discriminate E|]. rewrite <- E. clear E x xs.
  rewrite nth_snoc. destruct (negb _); [reflexivity|].
  rewrite app_length. cbn [length].
  destruct i as [|y i]; [reflexivity|]. cbn [length].
  destruct (Nat.eqb_spec (S (length i) + 1) 1); [lia|].
  now replace (S (length i) + 1 - 1)%nat with (S (length i)) by lia.
Qed.

Lemma encode_minimally_correct v : bytes_ok v ->
  script_num (encode_minimally v) = script_num v /\
  minimal_num (encode_minimally v) /\
  bytes_ok (encode_minimally v) /\
  (length (encode_minimally v) <= length v)%nat.
Proof.
  intros Hok. destruct (list_snoc v) as [->|(i & last & ->)].
  { cbn. repeat split; auto. now left. }
  rewrite encode_minimally_snoc. pose proof Hok as Hok'.
  apply bytes_ok_app in Hok. destruct Hok as [Hi Hb]. apply bytes_ok_cons in Hb. destruct Hb as [Hb _].
  rewrite land7f by exact Hb.
  destruct (Z.eqb_spec (last mod 128) 0) as [Hz|Hz]; cbn [negb].
  2:{ repeat split; auto. right. exists i, last. auto. }
  assert (last = 0 \/ last = 128) as Hlast by (unfold byte_ok in Hb; zdm).
  destruct i as [|y i].
  { destruct Hlast as [-> | ->]; cbn; repeat split; auto; try (now left); constructor. }
  destruct (list_snoc (y :: i)) as [E|(j & p & E)]; [discriminate E|].
  rewrite E in *. rewrite nth_snoc2.
  assert (byte_ok p) as Hp.
  { apply bytes_ok_app in Hi. destruct Hi as [_ Hp]. now apply bytes_ok_cons in Hp. }
  rewrite land80_0 by exact Hp.
  destruct (Z.ltb_spec p 128) as [Hp128|Hp128]; cbn [negb].
  2:{ repeat split; auto. right. exists (j ++ [p]), last. split; [reflexivity|]. right. exists j, p. auto. }
  destruct (em_loop_spec last Hlast (j ++ [p]) [last] Hi ltac:(discriminate)) as (A & B & C & D).
  repeat split; auto.
  - rewrite A, script_num_snoc by assumption.
    destruct Hlast as [-> | ->]; cbn [Z.eqb Z.ltb Z.compare Pos.compare Pos.compare_cont]; lia.
  - rewrite (app_length _ [last]). cbn [length]. exact D.
Qed.

Lemma encode_minimally_id v : bytes_ok v -> minimal_num v -> encode_minimally v = v.
Proof.
  intros Hok [->|(i & last & -> & H)]; [reflexivity|].
  rewrite encode_minimally_snoc.
  apply bytes_ok_app in Hok. destruct Hok as [Hi Hb]. apply bytes_ok_cons in Hb. destruct Hb as [Hb _].
  rewrite land7f by exact Hb.
  destruct (Z.eqb_spec (last mod 128) 0) as [Hz|Hz]; cbn [negb]; [|reflexivity].
  destruct H as [H|(j & p & -> & Hp)]; [contradiction|].
  rewrite nth_snoc2.
  assert (byte_ok p) as Hpok.
  { apply bytes_ok_app in Hi. destruct Hi as [_ Hp']. now apply bytes_ok_cons in Hp'. }
  rewrite land80_0 by exact Hpok. destruct (Z.ltb_spec p 128); [lia|]. cbn [negb].
  destruct (j ++ [p]) eqn:E; [destruct j; discriminate E|]. reflexivity.
Qed.

Lemma encode_minimally_fix v : bytes_ok v -> (encode_minimally v = v <-> minimal_num v).
Proof.
  intros H; split; [|now apply encode_minimally_id].
  intros E. rewrite <- E. now apply encode_minimally_correct.
Qed.

(** A minimal vector's magnitude determines its length. *)
Lemma minimal_magnitude v : bytes_ok v -> minimal_num v -> v <> [] ->
  2 ^ (8 * (zlen v - 1)) <= 2 * Z.abs (script_num v) /\ Z.abs (script_num v) < 2 ^ (8 * zlen v - 1) /\
  script_num v <> 0.
Proof.
  intros Hok [->|(i & last & -> & H)] Hne; [congruence|].
  apply bytes_ok_app in Hok. destruct Hok as [Hi Hb]. apply bytes_ok_cons in Hb. destruct Hb as [Hb _].
  rewrite script_num_snoc by assumption. rewrite zlen_app. change (zlen [last]) with 1.
  replace (zlen i + 1 - 1) with (zlen i) by lia.
  replace (8 * (zlen i + 1) - 1) with (8 * zlen i + 7) by lia.
  pose proof (zlen_nonneg i). rewrite Z.pow_add_r by lia. change (2 ^ 7) with 128.
  pose proof (le_value_bound i Hi) as Bi.
  assert (0 < 2 ^ (8 * zlen i)) as HP by (apply Z.pow_pos_nonneg; lia).
  unfold byte_ok in Hb.
  assert (exists m, 0 <= m < 128 /\ last mod 128 = m /\
    (if last <? 128 then le_value i + 2 ^ (8 * zlen i) * last
     else - (le_value i + 2 ^ (8 * zlen i) * (last - 128))) =
    (if last <? 128 then 1 else -1) * (le_value i + 2 ^ (8 * zlen i) * m)) as (m & Hm & Hmod & ->).
  { destruct (Z.ltb_spec last 128).
    - exists last. split; [lia|]. split; [zdm|lia].
    - exists (last - 128). split; [lia|]. split; [zdm|lia]. }
  assert (le_value i + 2 ^ (8 * zlen i) * m < 128 * 2 ^ (8 * zlen i)) by nia.
  assert (2 ^ (8 * zlen i) <= 2 * (le_value i + 2 ^ (8 * zlen i) * m)).
  { destruct H as [H|(j & p & -> & Hp)]; [nia|].
    rewrite le_value_app in *. rewrite zlen_app in *. change (zlen [p]) with 1 in *.
    cbn [le_value] in *.
    apply bytes_ok_app in Hi. destruct Hi as [Hj _]. pose proof (le_value_bound j Hj) as Bj.
    pose proof (zlen_nonneg j).
    replace (8 * (zlen j + 1)) with (8 * zlen j + 8) in * by lia.
    rewrite Z.pow_add_r in * by lia. change (2 ^ 8) with 256 in *. nia. }
  assert (Z.abs ((if last <? 128 then 1 else -1) * (le_value i + 2 ^ (8 * zlen i) * m)) =
          le_value i + 2 ^ (8 * zlen i) * m) as Ha.
  { destruct (last <? 128); lia. }
  rewrite Ha. repeat split; try lia.
Qed.

Lemma script_num_snoc_inj u v : bytes_ok u -> bytes_ok v -> length u = length v ->
  script_num u = script_num v -> script_num u <> 0 -> u = v.
Proof.
  intros Hu Hv Hl E Hnz.
  apply le_value_inj; auto.
  unfold script_num in *. assert (zlen u = zlen v) as Hz by (unfold zlen; lia).
  destruct u as [|a u]; [congruence|]. destruct v as [|b v]; [discriminate Hl|].
  rewrite Hz in *. pose proof (le_value_bound _ Hu) as Bu. pose proof (le_value_bound _ Hv) as Bv.
  rewrite Hz in Bu. set (H := 2 ^ (8 * zlen (b :: v) - 1)) in *.
  assert (2 ^ (8 * zlen (b :: v)) = 2 * H).
  { unfold H. replace (8 * zlen (b :: v)) with (1 + (8 * zlen (b :: v) - 1)) at 1 by lia.
    rewrite Z.pow_add_r; [reflexivity|lia|]. rewrite zlen_cons. pose proof (zlen_nonneg v). lia. }
  destruct (Z.ltb_spec (le_value (a :: u)) H); destruct (Z.ltb_spec (le_value (b :: v)) H); lia.
Qed.

Lemma minimal_unique u v : bytes_ok u -> bytes_ok v -> minimal_num u -> minimal_num v ->
  script_num u = script_num v -> u = v.
Proof.
  intros Hu Hv Mu Mv E.
  destruct u as [|a u].
  { destruct v as [|b v]; [reflexivity|].
    pose proof (minimal_magnitude (b :: v) Hv Mv ltac:(discriminate)) as (_ & _ & N).
    change (script_num []) with 0 in E. congruence. }
  destruct v as [|b v].
  { pose proof (minimal_magnitude (a :: u) Hu Mu ltac:(discriminate)) as (_ & _ & N).
    change (script_num []) with 0 in E. congruence. }
  pose proof (minimal_magnitude (a :: u) Hu Mu ltac:(discriminate)) as (A1 & A2 & A3).
  pose proof (minimal_magnitude (b :: v) Hv Mv ltac:(discriminate)) as (B1 & B2 & _).
  apply script_num_snoc_inj; auto.
  rewrite E in *. set (n := Z.abs (script_num (b :: v))) in *.
  assert (forall x y, 1 <= x -> 1 <= y -> 2 ^ (8 * (x - 1)) <= 2 * n -> n < 2 ^ (8 * y - 1) -> x <= y) as Key.
  { intros x y Hx Hy P Q. destruct (Z_le_gt_dec x y); [assumption|exfalso].
    assert (2 ^ (8 * y) <= 2 ^ (8 * (x - 1))) by (apply Z.pow_le_mono_r; lia).
    assert (2 ^ (8 * y) = 2 * 2 ^ (8 * y - 1)).
    { replace (8 * y) with (1 + (8 * y - 1)) at 1 by lia. rewrite Z.pow_add_r by lia. reflexivity. }
    lia. }
  pose proof (zlen_nonneg u). pose proof (zlen_nonneg v).
  pose proof (zlen_cons a u). pose proof (zlen_cons b v).
  assert (zlen (a :: u) = zlen (b :: v)) as EE.
  { apply Z.le_antisymm; apply Key; auto; lia. }
  unfold zlen in EE. lia.
Qed.

(* ---------- integers ---------- *)
Lemma le_bytes4_abs_num i : - 2 ^ 31 < i < 2 ^ 31 ->
  script_num (le_bytes 4 (Z.abs i) ++ (if i <? 0 then [128] else [])) = i.
Proof.
  intros Hi.
  assert (le_value (le_bytes 4 (Z.abs i)) = Z.abs i) as Hv by (apply le_value_bytes_small; cbn; lia).
  destruct (Z.ltb_spec i 0).
  - rewrite script_num_snoc by (try apply le_bytes_ok; unfold byte_ok; lia).
    rewrite Hv, le_bytes_zlen. change (128 <? 128) with false. cbv iota. lia.
  - rewrite app_nil_r. unfold script_num.
    pose proof (le_bytes_zlen 4 (Z.abs i)) as Hz.
    destruct (le_bytes 4 (Z.abs i)) as [|x xs]; [discriminate Hz|].
    rewrite Hv, Hz. change (2 ^ (8 * Z.of_nat 4 - 1)) with (2 ^ 31).
    destruct (Z.ltb_spec (Z.abs i) (2 ^ 31)); lia.
Qed.

Lemma encode_int_correct i : - 2 ^ 31 < i < 2 ^ 31 ->
  script_num (encode_int i) = i /\ minimal_num (encode_int i) /\ bytes_ok (encode_int i) /\
  (length (encode_int i) <= 4)%nat.
Proof.
  intros Hi. unfold encode_int.
  set (v := le_bytes 4 (Z.abs i) ++ (if i <? 0 then [128] else [])).
  assert (bytes_ok v) as Hok.
  { apply bytes_ok_app; split; [apply le_bytes_ok|].
    destruct (i <? 0); [apply bytes_ok_cons; split; [unfold byte_ok; lia|constructor]|constructor]. }
  destruct (encode_minimally_correct v Hok) as (A & B & C & _).
  assert (script_num (encode_minimally v) = i) as V.
  { rewrite A. now apply le_bytes4_abs_num. }
  repeat split; auto.
  destruct (encode_minimally v) as [|x xs] eqn:E; [cbn; lia|].
  pose proof (minimal_magnitude (x :: xs) C B ltac:(discriminate)) as (M & _ & _).
  rewrite V in M. change (2 ^ 31) with 2147483648 in Hi.
  destruct (Nat.le_gt_cases (length (x :: xs)) 4) as [|G]; [assumption|exfalso].
  assert (2 ^ 32 <= 2 ^ (8 * (zlen (x :: xs) - 1))).
  { apply Z.pow_le_mono_r; [lia|]. unfold zlen. lia. }
  change (2 ^ 32) with 4294967296 in *. lia.
Qed.

Lemma wrap32_id n : i32_ok n -> wrap32 n = n.
Proof. unfold i32_ok, wrap32. intros H. rewrite Z.mod_small; lia. Qed.

Lemma i32_checked_id n : i32_ok n -> i32_checked n = Ok n.
Proof. unfold i32_ok, i32_checked. intros H. destruct (Z.leb_spec (- 2 ^ 31) n); destruct (Z.ltb_spec n (2 ^ 31)); cbn [andb]; try reflexivity; lia. Qed.


Lemma shl8 v k : 0 <= k -> Z.shiftl v (8 * k) = v * 2 ^ (8 * k).
Proof. intros H. apply Z.shiftl_mul_pow2. lia. Qed.

Lemma pow8_cases k : 0 <= k <= 3 ->
  k = 0 /\ 2 ^ (8 * k) = 1 \/ k = 1 /\ 2 ^ (8 * k) = 256 \/ k = 2 /\ 2 ^ (8 * k) = 65536 \/
  k = 3 /\ 2 ^ (8 * k) = 16777216.
Proof.
  intros H. assert (k = 0 \/ k = 1 \/ k = 2 \/ k = 3) as [->|[->|[->| ->]]] by lia; cbn; tauto.
Qed.

Lemma wrap32_byte v k : byte_ok v -> 0 <= k <= 3 ->
  wrap32 (v * 2 ^ (8 * k)) = v * 2 ^ (8 * k) - (if (k =? 3) && (128 <=? v) then 2 ^ 32 else 0).
Proof.
  unfold byte_ok; intros Hv Hk. unfold wrap32.
  change (2 ^ 31) with 2147483648. change (2 ^ 32) with 4294967296.
  destruct (pow8_cases k Hk) as [[-> ->]|[[-> ->]|[[-> ->]|[-> ->]]]]; cbn [Z.eqb Pos.eqb andb];
  try destruct (Z.leb_spec 128 v); zdm.
Qed.

Lemma v2i_step_acc v k acc : byte_ok v -> 0 <= k <= 3 -> 0 <= acc < 2 ^ (8 * k) ->
  (if v =? 0 then Ok acc else do s <- try_shl v (8 * k); i32_checked (acc + s))
  = Ok (wrap32 (acc + 2 ^ (8 * k) * v)).
Proof.
  intros Hv Hk Ha.
  assert (acc + wrap32 (v * 2 ^ (8 * k)) = wrap32 (acc + 2 ^ (8 * k) * v) /\
          i32_ok (acc + wrap32 (v * 2 ^ (8 * k)))) as [E R].
  { rewrite wrap32_byte by assumption. unfold wrap32, i32_ok, byte_ok in *.
    change (2 ^ 31) with 2147483648. change (2 ^ 32) with 4294967296.
    destruct (pow8_cases k Hk) as [[-> Hp]|[[-> Hp]|[[-> Hp]|[-> Hp]]]]; rewrite Hp in *; cbn [Z.eqb Pos.eqb andb];
    try destruct (Z.leb_spec 128 v); zdm. }
  destruct (Z.eqb_spec v 0) as [->|].
  - rewrite <- E. f_equal. rewrite Z.mul_0_l. change (wrap32 0) with 0. lia.
  - unfold try_shl, checked_shl32. destruct (Z.ltb_spec (8 * k) 32); [|lia]. cbn [obind].
    rewrite shl8 by lia. rewrite i32_checked_id by assumption. now rewrite E.
Qed.

Lemma v2i_pre sb i : forall t k acc, bytes_ok i -> t <> [] -> 0 <= k -> k + zlen i <= 4 ->
  0 <= acc < 2 ^ (8 * k) ->
  v2i_loop (i ++ t) sb (8 * k) acc =
  v2i_loop t sb (8 * (k + zlen i)) (if zlen i =? 0 then acc else wrap32 (acc + 2 ^ (8 * k) * le_value i)).
Proof.
  induction i as [|v i IH]; intros t k acc Hok Ht Hk Hlen Hacc.
  - cbn [app]. rewrite zlen_nil, Z.add_0_r. reflexivity.
  - apply bytes_ok_cons in Hok. destruct Hok as [Hv Hi].
    rewrite zlen_cons in *. pose proof (zlen_nonneg i) as Hn.
    cbn [app v2i_loop].
    destruct (i ++ t) as [|y ys] eqn:E; [destruct i; cbn in E; congruence|]. rewrite <- E. clear E y ys.
    cbn [andb]. rewrite v2i_step_acc by (auto; lia). cbn [obind].
    destruct (Z.leb_spec (2 ^ 32) (8 * k + 8)); [lia|].
    replace (8 * k + 8) with (8 * (k + 1)) by lia.
    destruct (Z.eqb_spec (1 + zlen i) 0); [lia|].
    destruct (Z.eqb_spec (zlen i) 0) as [Hz|Hz].
    + apply zlen_0 in Hz. subst i. cbn [app le_value]. rewrite zlen_nil.
      replace (k + (1 + 0)) with (k + 1) by lia. replace (v + 256 * 0) with v by lia. reflexivity.
    + assert (wrap32 (acc + 2 ^ (8 * k) * v) = acc + 2 ^ (8 * k) * v /\
        0 <= acc + 2 ^ (8 * k) * v < 2 ^ (8 * (k + 1))) as [W1 W2].
      { unfold byte_ok in Hv. replace (8 * (k + 1)) with (8 * k + 8) by lia.
        rewrite Z.pow_add_r by lia. change (2 ^ 8) with 256.
        split; [|nia]. apply wrap32_id. unfold i32_ok. change (2 ^ 31) with 2147483648.
        destruct (pow8_cases k ltac:(lia)) as [[-> Hp]|[[-> Hp]|[[-> Hp]|[-> Hp]]]]; rewrite Hp in *; lia. }
      rewrite W1. rewrite IH by (auto; lia).
      destruct (Z.eqb_spec (zlen i) 0); [lia|].
      f_equal; [lia|]. f_equal. cbn [le_value].
      replace (8 * (k + 1)) with (8 * k + 8) by lia. rewrite Z.pow_add_r by lia. change (2 ^ 8) with 256. lia.
Qed.

Lemma v2i_high sb : forall t k acc, bytes_ok t -> t <> [] -> 4 <= k -> k + zlen t < 2 ^ 29 ->
  (sb = 0 -> v2i_loop t sb (8 * k) acc =
     if forallb (Z.eqb 0) t then Ok acc else Err EIntOverflow) /\
  (sb <> 0 -> v2i_loop t sb (8 * k) acc = Err EIntOverflow).
Proof.
  induction t as [|v t IH]; intros k acc Hok Ht Hk Hlen; [congruence|].
  apply bytes_ok_cons in Hok. destruct Hok as [Hv Hi]. rewrite zlen_cons in Hlen.
  pose proof (zlen_nonneg t). change (2 ^ 29) with 536870912 in *.
  assert (try_shl v (8 * k) = Err EIntOverflow) as Hs.
  { unfold try_shl, checked_shl32. destruct (Z.ltb_spec (8 * k) 32); [lia|reflexivity]. }
  assert (try_shl (Z.lxor v sb) (8 * k) = Err EIntOverflow) as Hs2.
  { unfold try_shl, checked_shl32. destruct (Z.ltb_spec (8 * k) 32); [lia|reflexivity]. }
  assert (2 ^ 32 <=? 8 * k + 8 = false) as Hb by (change (2 ^ 32) with 4294967296; lia).
  cbn [v2i_loop forallb]. rewrite Hs, Hs2, Hb. cbn [obind].
  split; intros Hsb.
  - subst sb. change (negb (0 =? 0)) with false. rewrite andb_false_r.
    rewrite (Z.eqb_sym 0 v). destruct (Z.eqb_spec v 0) as [->|]; cbn [obind andb]; [|reflexivity].
    destruct t as [|w t]; [reflexivity|].
    replace (8 * k + 8) with (8 * (k + 1)) by lia. 
    destruct (IH (k + 1) acc Hi ltac:(discriminate) ltac:(lia) ltac:(lia)) as [A B]; auto.
  - destruct (Z.eqb_spec sb 0); [contradiction|]. cbn [negb]. rewrite andb_true_r.
    destruct t as [|w t]; [reflexivity|].
    destruct (v =? 0); cbn [obind]; [|reflexivity].
    replace (8 * k + 8) with (8 * (k + 1)) by lia. 
    destruct (IH (k + 1) acc Hi ltac:(discriminate) ltac:(lia) ltac:(lia)) as [A B]; auto.
Qed.

Lemma vec_to_int_ne l : l <> [] ->
  vec_to_int l = v2i_loop l (Z.land (nth (length l - 1) l 0) 0x80) 0 0.
Proof. destruct l; [congruence|reflexivity]. Qed.

Lemma snoc_ne {A} (i : list A) b : i ++ [b] <> [].
Proof. destruct i; discriminate. Qed.

Lemma vec_to_int_short l : bytes_ok l -> zlen l <= 4 -> vec_to_int l = Ok (script_num l).
Proof.
  intros Hok Hl. destruct (list_snoc l) as [->|(i & b & ->)]; [reflexivity|].
  rewrite vec_to_int_ne by apply snoc_ne. rewrite nth_snoc.
  apply bytes_ok_app in Hok. destruct Hok as [Hi Hb]. apply bytes_ok_cons in Hb. destruct Hb as [Hb _].
  rewrite zlen_app in Hl. change (zlen [b]) with 1 in Hl. pose proof (zlen_nonneg i) as Hn.
  pose proof (le_value_bound i Hi) as Bi.
  rewrite land80_val by assumption.
  change 0 with (8 * 0) at 2. rewrite v2i_pre by (auto; try discriminate; cbn; lia).
  rewrite script_num_snoc by assumption.
  change (2 ^ (8 * 0)) with 1. rewrite Z.mul_1_l, !Z.add_0_l.
  assert ((if zlen i =? 0 then 0 else wrap32 (le_value i)) = le_value i) as ->.
  { destruct (Z.eqb_spec (zlen i) 0) as [Hz|Hz]; [apply zlen_0 in Hz; now subst i|].
    apply wrap32_id. unfold i32_ok. change (2 ^ 31) with 2147483648.
    destruct (pow8_cases (zlen i) ltac:(lia)) as [[Hz' Hp]|[[Hz' Hp]|[[Hz' Hp]|[Hz' Hp]]]]; rewrite Hp in *; lia. }
  cbn [v2i_loop]. destruct (Z.ltb_spec b 128) as [Hs|Hs].
  - cbn [Z.eqb negb andb]. rewrite v2i_step_acc by (auto; lia). cbn [obind].
    destruct (Z.leb_spec (2 ^ 32) (8 * zlen i + 8)); [lia|]. f_equal.
    apply wrap32_id. unfold i32_ok, byte_ok in *. change (2 ^ 31) with 2147483648.
    destruct (pow8_cases (zlen i) ltac:(lia)) as [[Hz' Hp]|[[Hz' Hp]|[[Hz' Hp]|[Hz' Hp]]]]; rewrite Hp in *; lia.
  - cbn [Z.eqb negb andb]. rewrite lxor80 by (auto; lia).
    unfold try_shl, checked_shl32. destruct (Z.ltb_spec (8 * zlen i) 32); [|lia]. cbn [obind].
    rewrite shl8 by lia.
    assert (byte_ok (b - 128)) as Hb' by (unfold byte_ok in *; lia).
    rewrite wrap32_byte by (auto; lia).
    assert ((128 <=? b - 128) = false) as -> by (unfold byte_ok in Hb; lia).
    rewrite andb_false_r, Z.sub_0_r.
    rewrite i32_checked_id.
    2:{ unfold i32_ok, byte_ok in *. change (2 ^ 31) with 2147483648.
        destruct (pow8_cases (zlen i) ltac:(lia)) as [[Hz' Hp]|[[Hz' Hp]|[[Hz' Hp]|[Hz' Hp]]]]; rewrite Hp in *; lia. }
    cbn [obind]. rewrite i32_checked_id.
    2:{ unfold i32_ok, byte_ok in *. change (2 ^ 31) with 2147483648.
        destruct (pow8_cases (zlen i) ltac:(lia)) as [[Hz' Hp]|[[Hz' Hp]|[[Hz' Hp]|[Hz' Hp]]]]; rewrite Hp in *; lia. }
    f_equal. lia.
Qed.

(** What the code does on five or more bytes. *)
Lemma vec_to_int_long l : bytes_ok l -> 5 <= zlen l < 2 ^ 29 ->
  vec_to_int l = if forallb (Z.eqb 0) (skipn 4 l)
                 then Ok (wrap32 (le_value (firstn 4 l))) else Err EIntOverflow.
Proof.
  intros Hok Hl.
  assert (l <> []) as Hne by (intros ->; rewrite zlen_nil in Hl; lia).
  rewrite vec_to_int_ne by assumption.
  set (sb := Z.land (nth (length l - 1) l 0) 128).
  assert (Hf : length (firstn 4 l) = 4%nat) by (apply firstn_length_le; unfold zlen in Hl; lia).
  assert (Hk : skipn 4 l <> []).
  { intros E. pose proof (skipn_length 4 l) as G. rewrite E in G. cbn in G. unfold zlen in Hl. lia. }
  assert (v2i_loop l sb 0 0 = v2i_loop (skipn 4 l) sb (8 * 4) (wrap32 (le_value (firstn 4 l)))) as ->.
  { rewrite <- (firstn_skipn 4 l) at 1. change 0 with (8 * 0) at 1.
    rewrite v2i_pre; [|now apply bytes_ok_firstn|exact Hk|lia|unfold zlen; lia|cbn; lia].
    assert (zlen (firstn 4 l) = 4) as -> by (unfold zlen; lia). cbn [Z.eqb].
    change (2 ^ (8 * 0)) with 1. rewrite Z.mul_1_l, Z.add_0_l. reflexivity. }
  destruct (v2i_high sb (skipn 4 l) 4 (wrap32 (le_value (firstn 4 l)))) as [A B].
  { now apply bytes_ok_skipn. } { exact Hk. } { lia. }
  { unfold zlen in *. rewrite skipn_length. lia. }
  destruct (Z.eq_dec sb 0) as [Hz|Hz]; [now apply A|].
  rewrite (B Hz).
  destruct (forallb (Z.eqb 0) (skipn 4 l)) eqn:F; [exfalso|reflexivity].
  apply Hz. unfold sb.
  destruct (list_snoc (skipn 4 l)) as [|(i & b & Es)]; [contradiction|].
  rewrite <- (firstn_skipn 4 l), Es, app_assoc, nth_snoc.
  rewrite Es, forallb_app in F. cbn [forallb] in F.
  assert (b = 0) as -> by lia. reflexivity.
Qed.

Lemma vec_to_int_encode i : - 2 ^ 31 < i < 2 ^ 31 -> vec_to_int (encode_int i) = Ok i.
Proof.
  intros H. destruct (encode_int_correct i H) as (A & _ & C & D).
  rewrite vec_to_int_short by (auto; unfold zlen; lia). now rewrite A.
Qed.

Lemma encode_int_inj i j : - 2 ^ 31 < i < 2 ^ 31 -> - 2 ^ 31 < j < 2 ^ 31 ->
  encode_int i = encode_int j -> i = j.
Proof.
  intros Hi Hj E. pose proof (vec_to_int_encode i Hi) as A.
  rewrite E, vec_to_int_encode in A by assumption. congruence.
Qed.
