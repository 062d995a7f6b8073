(** * Generated builders emit frames (proof support) *)
From Coq Require Import String List NArith ZArith Bool Lia ZifyBool ZifyNat ZifyN.
From Verif Require Import Base BaseFacts Checksum DualBuffer Parser PackDesc GenRecv GenSend SpecFrame SpecPacket
  ProofChecksum.
Import ListNotations.
Open Scope N_scope.

(** ** Integers *)

Lemma int_bytes_le_bytes k : forall z, (0 <= z)%Z ->
  map (fun i => n2b (Z.to_N ((z / 256 ^ Z.of_nat i) mod 256))) (seq 0 k) = le_bytes k (Z.to_N z).
Proof.
  induction k as [|k IH]; intros z Hz; [reflexivity|].
  cbn [seq map le_bytes]. f_equal.
  - apply b2n_inj. rewrite !b2n_n2b. change (256 ^ Z.of_nat 0)%Z with 1%Z. rewrite Z.div_1_r.
    rewrite Z2N.inj_mod by lia. change (Z.to_N 256) with 256. now rewrite N.mod_mod.
  - rewrite <- seq_shift, map_map.
    replace (Z.to_N z / 256) with (Z.to_N (z / 256)).
    2: { rewrite Z2N.inj_div by lia. reflexivity. }
    rewrite <- IH by (apply Z.div_pos; lia). apply map_ext. intros i.
    f_equal. f_equal. f_equal.
    rewrite Nat2Z.inj_succ, Z.pow_succ_r by lia.
    rewrite Z.div_div; [reflexivity|lia|apply Z.pow_pos_nonneg; lia].
Qed.

Lemma int_bytes_mod n z : int_bytes n z = int_bytes n (z mod 2 ^ (8 * Z.of_N n))%Z.
Proof.
  unfold int_bytes. apply map_ext_in. intros i Hi. apply in_seq in Hi. f_equal. f_equal.
  set (q := (z / 2 ^ (8 * Z.of_N n))%Z).
  assert (E : z = (z mod 2 ^ (8 * Z.of_N n) + q * 2 ^ (8 * Z.of_N n))%Z).
  { pose proof (Z.div_mod z (2 ^ (8 * Z.of_N n)))%Z. assert (0 < 2 ^ (8 * Z.of_N n))%Z by (apply Z.pow_pos_nonneg; lia).
    unfold q. lia. }
  rewrite E at 1. generalize (z mod 2 ^ (8 * Z.of_N n))%Z as m. intros m.
  replace (2 ^ (8 * Z.of_N n))%Z with (256 * 256 ^ (Z.of_N n - 1 - Z.of_nat i) * 256 ^ Z.of_nat i)%Z.
  2: { change 256%Z with (2 ^ 8)%Z. rewrite <- !Z.pow_mul_r by lia. rewrite <- !Z.pow_add_r by lia. f_equal. lia. }
  rewrite Z.mul_assoc. rewrite Z.div_add by (assert (0 < 256 ^ Z.of_nat i)%Z by (apply Z.pow_pos_nonneg; lia); lia).
  replace (q * (256 * 256 ^ (Z.of_N n - 1 - Z.of_nat i)))%Z with (q * 256 ^ (Z.of_N n - 1 - Z.of_nat i) * 256)%Z by lia.
  now rewrite Z.mod_add by lia.
Qed.

Lemma to_le_bytes_int s z : to_le_bytes s z = int_bytes (scalar_size s) z.
Proof.
  unfold to_le_bytes. rewrite int_bytes_mod. unfold int_bytes. rewrite int_bytes_le_bytes; [reflexivity|].
  apply Z.mod_pos_bound. apply Z.pow_pos_nonneg; lia.
Qed.

Lemma raw_bytes_wire t r : t <> Items -> raw_bytes t r = wire t r.
Proof. destruct t; cbn; intros H; [apply to_le_bytes_int|reflexivity|congruence]. Qed.

Lemma wire_len t r n : size_bytes t = Some n -> raw_ok t r -> lenN (wire t r) = n.
Proof.
  destruct t as [s|k|]; cbn; intros E H.
  - inversion E; subst. unfold int_bytes. unfold lenN. rewrite map_length, seq_length. lia.
  - destruct (k =? 0) eqn:K; [discriminate|]. inversion E; subst. lia.
  - discriminate.
Qed.

Lemma sized_not_items f n : f_size f = Some n -> f_ty f <> Items.
Proof. unfold f_size. intros H E. rewrite E in H. discriminate. Qed.

(** ** Writing into the array *)

Lemma set_at_ok l i v : i < lenN l -> set_at l i v = Ret (takeN i l ++ v :: dropN (i + 1) l).
Proof. intros H. unfold set_at. rewrite (proj2 (N.ltb_lt _ _) H). reflexivity. Qed.

Lemma set_at_app a x b v i : lenN a = i -> set_at (a ++ x :: b) i v = Ret (a ++ v :: b).
Proof.
  intros E. rewrite set_at_ok by (rewrite lenN_app, lenN_cons; lia).
  rewrite takeN_app_exact by auto. rewrite dropN_app_ge by lia.
  replace (i + 1 - lenN a) with 1 by lia. reflexivity.
Qed.

Lemma copy_bytes_app n : forall pre bytes mid post off i0,
  lenN pre = off + i0 -> lenN bytes = i0 + N.of_nat n -> length mid = n ->
  copy_bytes (pre ++ mid ++ post) off i0 bytes n = Ret (pre ++ dropN i0 bytes ++ post).
Proof.
  induction n as [|n IH]; intros pre bytes mid post off i0 Hp Hb Hm; cbn [copy_bytes].
  - destruct mid; [|discriminate]. rewrite dropN_all by lia. reflexivity.
  - destruct mid as [|m mid]; [discriminate|].
    rewrite get_nthN by lia. cbn [bind].
    cbn [app]. rewrite set_at_app by exact Hp. cbn [bind].
    replace (pre ++ nthN bytes i0 :: mid ++ post) with ((pre ++ [nthN bytes i0]) ++ mid ++ post)
      by now rewrite <- app_assoc.
    rewrite IH.
    + rewrite <- app_assoc. rewrite (dropN_nthN bytes i0) by lia. reflexivity.
    + rewrite lenN_app, Hp. cbn. lia.
    + lia.
    + cbn in Hm. lia.
Qed.

Lemma typed_len f v r n : field_typed f -> fvalue_ok f v -> to_raw f v = Ret r -> f_size f = Some n ->
  lenN (wire (f_ty f) r) = n.
Proof. intros T H E S. eapply wire_len; [exact S|]. eapply T; eauto. Qed.

Lemma split_len {A} (l : list A) n : n <= lenN l -> exists a b, l = a ++ b /\ lenN a = n.
Proof. intros H. exists (takeN n l), (dropN n l). split; [now rewrite takeN_dropN|]. rewrite lenN_takeN. lia. Qed.

Lemma pack_fields_spec fs : forall b off pre mid post n,
  Forall field_typed fs -> builder_ok fs b -> fields_size fs = Some n ->
  lenN pre = off -> lenN mid = n ->
  pack_fields fs off b (pre ++ mid ++ post) =
  ret_map (fun ws => pre ++ concat ws ++ post) (wire_fields fs b).
Proof.
  induction fs as [|f fs IH]; intros b off pre mid post n T B S Hp Hm; cbn [pack_fields wire_fields].
  - cbn in S. injection S as Sn. rewrite (lenN_0 mid) by lia. reflexivity.
  - cbn in S. destruct (f_size f) as [a|] eqn:Sf; [|discriminate].
    destruct (fields_size fs) as [c|] eqn:Sfs; [|discriminate]. injection S as Sn.
    apply Forall_cons_iff in T. destruct T as [Tf Tfs]. subst off. destruct B as [Bf Bfs]. destruct b as [v b]; cbn [fst snd] in *.
    unfold field_bytes. destruct (to_raw f v) as [r| |] eqn:E; cbn [bind ret_map]; try reflexivity.
    rewrite raw_bytes_wire by (eapply sized_not_items; eassumption).
    pose proof (typed_len f v r a Tf Bf E Sf) as L.
    destruct (split_len mid a ltac:(lia)) as (m1 & m2 & -> & Lm1).
    rewrite lenN_app in Hm. rewrite <- app_assoc.
    rewrite copy_bytes_app.
    2: { lia. } 2: { lia. } 2: { unfold lenN in Lm1. lia. }
    cbn [bind]. rewrite dropN_0. rewrite app_assoc.
    rewrite (IH b (lenN pre + a) (pre ++ wire (f_ty f) r) m2 post c Tfs Bfs eq_refl); [|rewrite lenN_app; lia|lia].
    destruct (wire_fields fs b) as [ws| |]; cbn; [|reflexivity|reflexivity]. now rewrite <- !app_assoc.
Qed.

Lemma wire_fields_len fs : forall b n ws,
  Forall field_typed fs -> builder_ok fs b -> fields_size fs = Some n ->
  wire_fields fs b = Ret ws -> map lenN ws = map field_size fs /\ lenN (concat ws) = n.
Proof.
  induction fs as [|f fs IH]; intros b n ws T B S E; cbn in *.
  - inversion E; inversion S; subst. split; reflexivity.
  - destruct (f_size f) as [a|] eqn:Sf; [|discriminate].
    destruct (fields_size fs) as [c|] eqn:Sfs; [|discriminate]. inversion S; subst n.
    inversion T as [|? ? Tf Tfs]; subst. destruct B as [Bf Bfs]. destruct b as [v b]; cbn [fst snd] in *.
    destruct (to_raw f v) as [r| |] eqn:Er; cbn in E; try discriminate.
    destruct (wire_fields fs b) as [ws'| |] eqn:Ew; cbn in E; try discriminate.
    inversion E; subst ws. destruct (IH b c ws' Tfs Bfs eq_refl Ew) as [I1 I2].
    pose proof (typed_len f v r a Tf Bf Er Sf) as L. cbn [map concat]. split.
    + rewrite I1, L. unfold field_size. now rewrite Sf.
    + rewrite lenN_app, L, I2. reflexivity.
Qed.

Lemma frame_shape c i p :
  frame c i p = [xb5; x62; c; i; n2b (lenN p); n2b (lenN p / 256)] ++ p ++ fletcher (header c i p ++ p).
Proof. reflexivity. Qed.

Lemma u16_bytes_header n : u16_bytes n = [n2b n; n2b (n / 256)].
Proof. reflexivity. Qed.

Lemma repeat_split n a b : n = (a + b)%nat -> repeat x00 n = repeat x00 a ++ repeat x00 b.
Proof. intros ->. apply repeat_app. Qed.

Lemma into_packet_bytes_spec p b n :
  desc_typed p -> builder_ok (p_fields p) b -> packet_payload_size p = Some n -> n <= 65535 ->
  into_packet_bytes p b =
  ret_map (fun ws => frame (p_class p) (p_id p) (concat ws)) (wire_fields (p_fields p) b).
Proof.
  intros T B S Hn. unfold into_packet_bytes. rewrite S. unfold packet_len. rewrite S.
  replace (N.to_nat (n + 8)) with (6 + (N.to_nat n + 2))%nat by lia.
  change (repeat x00 (6 + (N.to_nat n + 2))) with (x00 :: x00 :: x00 :: x00 :: x00 :: x00 :: repeat x00 (N.to_nat n + 2)).
  set (z := repeat x00 (N.to_nat n + 2)).
  change (x00 :: x00 :: x00 :: x00 :: x00 :: x00 :: z) with ([] ++ x00 :: (x00 :: x00 :: x00 :: x00 :: x00 :: z)).
  rewrite set_at_app by reflexivity. cbn [bind app].
  change (SYNC_CHAR_1 :: x00 :: x00 :: x00 :: x00 :: x00 :: z) with ([SYNC_CHAR_1] ++ x00 :: (x00 :: x00 :: x00 :: x00 :: z)).
  rewrite set_at_app by reflexivity. cbn [bind app].
  match goal with |- context [set_at (?a :: ?b :: x00 :: ?r) 2 ?v] =>
    change (a :: b :: x00 :: r) with ([a; b] ++ x00 :: r) end.
  rewrite set_at_app by reflexivity. cbn [bind app].
  match goal with |- context [set_at (?a :: ?b :: ?c :: x00 :: ?r) 3 ?v] =>
    change (a :: b :: c :: x00 :: r) with ([a; b; c] ++ x00 :: r) end.
  rewrite set_at_app by reflexivity. cbn [bind app].
  rewrite u16_bytes_header. cbn [get nth_error N.to_nat bind]. change (get [n2b n; n2b (n / 256)] 1) with (Ret (n2b (n / 256))).
  change (get [n2b n; n2b (n / 256)] 0) with (Ret (n2b n)). cbn [bind].
  match goal with |- context [set_at (?a :: ?b :: ?c :: ?d :: x00 :: ?r) 4 ?v] =>
    change (a :: b :: c :: d :: x00 :: r) with ([a; b; c; d] ++ x00 :: r) end.
  rewrite set_at_app by reflexivity. cbn [bind app].
  match goal with |- context [set_at (?a :: ?b :: ?c :: ?d :: ?e :: x00 :: ?r) 5 ?v] =>
    change (a :: b :: c :: d :: e :: x00 :: r) with ([a; b; c; d; e] ++ x00 :: r) end.
  rewrite set_at_app by reflexivity. cbn [bind app].
  match goal with |- context [pack_fields _ 6 b (?a :: ?b' :: ?c :: ?d :: ?e :: ?f :: z)] =>
    change (a :: b' :: c :: d :: e :: f :: z) with ([a; b'; c; d; e; f] ++ z) end.
  unfold z. rewrite (repeat_split (N.to_nat n + 2) (N.to_nat n) 2) by lia.
  rewrite (pack_fields_spec (p_fields p) b 6 _ (repeat x00 (N.to_nat n)) (repeat x00 2) n T B S);
    [|reflexivity|unfold lenN; rewrite repeat_length; lia].
  destruct (wire_fields (p_fields p) b) as [ws| |] eqn:Ew; cbn [ret_map bind]; [|reflexivity|reflexivity].
  destruct (wire_fields_len _ _ _ _ T B S Ew) as [_ L].
  rewrite usub_ok by lia. cbn [bind].
  set (w := concat ws) in *.
  set (hd := [SYNC_CHAR_1; SYNC_CHAR_2; p_class p; p_id p; n2b n; n2b (n / 256)]).
  rewrite slice_ok; [|lia|rewrite !lenN_app; change (lenN hd) with 6; change (lenN (repeat x00 2)) with 2; lia].
  cbn [bind]. replace (n + 8 - 2 - 2) with (4 + n) by lia.
  replace (takeN (4 + n) (dropN 2 (hd ++ w ++ repeat x00 2))) with ([p_class p; p_id p; n2b n; n2b (n / 256)] ++ w).
  2: { rewrite dropN_app_le by (cbn; lia). change (dropN 2 hd) with [p_class p; p_id p; n2b n; n2b (n / 256)].
       rewrite app_assoc. symmetry. apply takeN_app_exact. rewrite lenN_app, L. reflexivity. }
  rewrite ubx_checksum_correct. cbn [bind].
  change (repeat x00 2) with [x00; x00].
  replace (hd ++ w ++ [x00; x00]) with ((hd ++ w) ++ x00 :: [x00]) by now rewrite <- app_assoc.
  rewrite set_at_app by (rewrite lenN_app; change (lenN hd) with 6; lia). cbn [bind].
  rewrite usub_ok by lia. cbn [bind].
  match goal with |- set_at ((hd ++ w) ++ ?k :: [x00]) _ _ = _ =>
    replace ((hd ++ w) ++ k :: [x00]) with ((hd ++ w ++ [k]) ++ x00 :: []) by now rewrite <- !app_assoc end.
  rewrite set_at_app by (rewrite !lenN_app; change (lenN hd) with 6; change (lenN [_]) with 1; lia).
  rewrite frame_shape. unfold header. rewrite L. unfold fletcher. rewrite <- !app_assoc. reflexivity.
Qed.

(** ** [create_packet] *)

Lemma write_fields_spec {W E} (w : mem_writer W E) fs : forall b n ws out ck,
  Forall field_typed fs -> builder_ok fs b -> fields_size fs = Some n -> wire_fields fs b = Ret ws ->
  exists ck', write_fields w fs b out ck = Ret (fst (write_all w ws out), ck', snd (write_all w ws out)) /\
              (snd (write_all w ws out) = None -> ck' = cksum_update ck (concat ws)).
Proof.
  induction fs as [|f fs IH]; intros b n ws out ck T B S Ew; cbn [write_fields wire_fields] in *.
  - inversion Ew; subst. exists ck. split; reflexivity.
  - cbn in S. destruct (f_size f) as [a|] eqn:Sf; [|discriminate].
    destruct (fields_size fs) as [c|] eqn:Sfs; [|discriminate]. injection S as Sn.
    apply Forall_cons_iff in T. destruct T as [Tf Tfs]. destruct B as [Bf Bfs]. destruct b as [v b]; cbn [fst snd] in *.
    unfold field_bytes. destruct (to_raw f v) as [r| |] eqn:Er; cbn [bind] in *; try discriminate.
    destruct (wire_fields fs b) as [ws'| |] eqn:Ew'; cbn [bind] in *; try discriminate.
    inversion Ew; subst ws. rewrite raw_bytes_wire by (eapply sized_not_items; eassumption).
    cbn [write_all concat]. destruct (w_write w (wire (f_ty f) r) out) as [out' [e|]].
    + exists ck. split; [reflexivity|discriminate].
    + destruct (IH b c ws' out' (cksum_update ck (wire (f_ty f) r)) Tfs Bfs eq_refl Ew') as (ck' & I1 & I2).
      exists ck'. split; [exact I1|]. intros H. rewrite (I2 H). apply cksum_update_app.
Qed.

Lemma write_all_app {W E} (w : mem_writer W E) a : forall b out,
  write_all w (a ++ b) out =
  match write_all w a out with (o, None) => write_all w b o | x => x end.
Proof.
  induction a as [|s a IH]; intros b out; cbn; [reflexivity|].
  destruct (w_write w s out) as [o [e|]]; [reflexivity|apply IH].
Qed.

Lemma packet_pieces_frame p ws : concat (packet_pieces p ws) = frame (p_class p) (p_id p) (concat ws).
Proof.
  unfold packet_pieces, frame. cbn [concat]. rewrite concat_app. cbn [concat]. rewrite app_nil_r.
  rewrite <- !app_assoc. reflexivity.
Qed.

Lemma create_packet_spec {W E} (w : mem_writer W E) p b n ws out :
  desc_typed p -> builder_ok (p_fields p) b -> packet_payload_size p = Some n -> n <= 65535 ->
  wire_fields (p_fields p) b = Ret ws ->
  create_packet w p b out =
  Ret (match w_reserve w (n + 8) out with
       | (out', None) => write_all w (packet_pieces p ws) out'
       | (out', Some e) => (out', Some e)
       end).
Proof.
  intros T B S Hn Ew. unfold create_packet. rewrite S. unfold packet_len. rewrite S.
  destruct (w_reserve w (n + 8) out) as [out1 [e|]]; [reflexivity|].
  destruct (wire_fields_len _ _ _ _ T B S Ew) as [_ L].
  rewrite u16_bytes_header. cbn [bind]. change (get [n2b n; n2b (n / 256)] 1) with (Ret (n2b (n / 256))).
  change (get [n2b n; n2b (n / 256)] 0) with (Ret (n2b n)). cbn [bind].
  unfold packet_pieces. cbn [write_all]. unfold header at 1. rewrite L.
  change ([xb5; x62] ++ [p_class p; p_id p; n2b n; n2b (n / 256)])
    with [SYNC_CHAR_1; SYNC_CHAR_2; p_class p; p_id p; n2b n; n2b (n / 256)].
  destruct (w_write w [SYNC_CHAR_1; SYNC_CHAR_2; p_class p; p_id p; n2b n; n2b (n / 256)] out1) as [out2 [e|]];
    [reflexivity|].
  change (slice_from [SYNC_CHAR_1; SYNC_CHAR_2; p_class p; p_id p; n2b n; n2b (n / 256)] 2)
    with (Ret [p_class p; p_id p; n2b n; n2b (n / 256)]). cbn [bind].
  match goal with |- context [write_fields w (p_fields p) b out2 ?ck] =>
    destruct (write_fields_spec w (p_fields p) b n ws out2 ck T B S Ew) as (ck' & H1 & H2) end.
  rewrite H1. cbn [bind]. rewrite write_all_app.
  destruct (write_all w ws out2) as [out3 [e|]]; cbn [fst snd] in *; [reflexivity|].
  rewrite (H2 eq_refl). rewrite cksum_update_app, cksum_correct. cbn [cksum_result write_all].
  unfold fletcher, header. rewrite L.
  destruct (w_write w _ out3) as [out4 [e|]]; reflexivity.
Qed.

Lemma write_all_appends {W E} (w : mem_writer W E) contents pieces : appends w contents -> forall out out' r,
  write_all w pieces out = (out', r) ->
  exists written rest, concat pieces = written ++ rest /\ contents out' = contents out ++ written /\
                       (r = None -> rest = []).
Proof.
  intros [_ A]. induction pieces as [|s pieces IH]; intros out out' r H; cbn in *.
  - inversion H; subst. exists [], []. rewrite !app_nil_r. auto.
  - destruct (w_write w s out) as [o [e|]] eqn:E1.
    + inversion H; subst. destruct (A _ _ _ _ E1) as (wr & rest & -> & Hc & _).
      exists wr, (rest ++ concat pieces). rewrite app_assoc. split; [reflexivity|]. split; [exact Hc|discriminate].
    + destruct (A _ _ _ _ E1) as (wr & rest & -> & Hc & Hn). rewrite (Hn eq_refl), app_nil_r in *.
      destruct (IH _ _ _ H) as (wr' & rest' & E2 & Hc' & Hn').
      exists (wr ++ wr'), rest'. rewrite E2, Hc', Hc, <- !app_assoc. auto.
Qed.

Lemma vec_write_all_ok {E} pieces : forall out,
  write_all (vec_writer E) pieces out = (out ++ concat pieces, None).
Proof.
  induction pieces as [|s pieces IH]; intros out; cbn [write_all concat vec_writer w_write vec_write_all].
  - now rewrite app_nil_r.
  - cbn. rewrite N.eqb_refl, IH, app_assoc. reflexivity.
Qed.

(** ** [extend_to] *)

Lemma extend_items_spec l : forall len out,
  Forall (fun x => it_ret x = lenN (it_bytes x)) l ->
  len + lenN (concat (map it_bytes l)) <= usize_max ->
  extend_items l len out =
  Ret (len + lenN (concat (map it_bytes l)), out ++ concat (map it_bytes l)).
Proof.
  induction l as [|x l IH]; intros len out H Hl; cbn [extend_items map concat] in *.
  - rewrite app_nil_r. f_equal. f_equal. cbn. lia.
  - inversion H; subst. rewrite lenN_app in *. rewrite uadd_ok by lia. cbn [bind].
    rewrite IH by (auto; lia). rewrite <- app_assoc. f_equal. f_equal. lia.
Qed.

Lemma wire_fields_app_cons f fs (b : builder (f :: fs)) :
  wire_fields (f :: fs) b =
  (let! r := to_raw f (fst b) in let! ws := wire_fields fs (snd b) in Ret (wire (f_ty f) r :: ws)).
Proof. reflexivity. Qed.

Lemma items_cast t (E : t = Items) (r : raw_val t) :
  items_honest t r -> Forall (fun x => it_ret x = lenN (it_bytes x)) (items_of t r) /\
  concat (map it_bytes (items_of t r)) = wire t r.
Proof. destruct t; try discriminate. cbn. auto. Qed.

Lemma extend_fields_spec init last : forall (b : builder (init ++ [last])) ws len out,
  Forall (fun f => f_size f <> None) init -> f_ty last = Items ->
  builder_honest (init ++ [last]) b ->
  wire_fields (init ++ [last]) b = Ret ws ->
  len + lenN (concat ws) <= usize_max ->
  extend_fields (init ++ [last]) b len out = Ret (len + lenN (concat ws), out ++ concat ws).
Proof.
  induction init as [|f init IH]; intros b ws len out Fs E Hon Ew Hl.
  - change ([] ++ [last]) with [last] in *. cbn [extend_fields wire_fields] in *.
    destruct b as [v []]. cbn [fst snd] in *. destruct Hon as [Hon _].
    replace (f_size last) with (@None N) by (unfold f_size; now rewrite E).
    cbn in Hon. destruct (to_raw last v) as [r| |] eqn:Er; cbn [bind] in *; try discriminate.
    inversion Ew; subst ws. cbn [concat] in *. rewrite app_nil_r in *.
    destruct (items_cast _ E r (Hon _ eq_refl)) as [H1 H2]. rewrite <- H2 in *.
    apply extend_items_spec; assumption.
  - change ((f :: init) ++ [last]) with (f :: (init ++ [last])) in *. cbn [extend_fields].
    rewrite wire_fields_app_cons in Ew. destruct b as [v b]. cbn [fst snd] in *. cbn [builder_honest] in Hon.
    destruct Hon as [_ Hon]. apply Forall_cons_iff in Fs. destruct Fs as [Ff Fs].
    destruct (f_size f) as [a|] eqn:Sf; [|congruence].
    unfold field_bytes. destruct (to_raw f v) as [r| |] eqn:Er; cbn [bind] in *; try discriminate.
    destruct (wire_fields (init ++ [last]) b) as [ws'| |] eqn:Ew'; cbn [bind] in *; try discriminate.
    inversion Ew; subst ws. cbn [concat] in *. rewrite lenN_app in *.
    rewrite raw_bytes_wire by (eapply sized_not_items; eassumption).
    rewrite uadd_ok by lia. cbn [bind].
    rewrite (IH b ws') by (auto; lia). rewrite <- app_assoc. f_equal. f_equal. lia.
Qed.

(** What [extend_to] does to a vector: see [extend_to_spec] *)
Definition extended (class id : byte) (payload out : list byte) : list byte :=
  let v := out ++ [xb5; x62; class; id; x00; x00] ++ payload in
  let v := takeN 4 v ++ [n2b (lenN payload); n2b (lenN payload / 256)] ++ dropN 6 v in
  v ++ fletcher (dropN 2 v).

Lemma extend_to_spec p b ws out :
  packet_payload_size p = None -> send_layout (p_fields p) ->
  builder_honest (p_fields p) b -> wire_fields (p_fields p) b = Ret ws ->
  lenN (concat ws) <= usize_max ->
  extend_to p b out = Ret (extended (p_class p) (p_id p) (concat ws) out).
Proof.
  intros S (init & last & El & Fs & Et) Hon Ew Hl. unfold extend_to. rewrite S.
  assert (X : forall o, extend_fields (p_fields p) b 0 o = Ret (lenN (concat ws), o ++ concat ws)).
  { intros o. revert b Hon Ew. rewrite El. intros b Hon Ew. exact (extend_fields_spec init last b ws 0 o Fs Et Hon Ew Hl). }
  rewrite X. cbn [bind]. set (w := concat ws) in *.
  change [SYNC_CHAR_1; SYNC_CHAR_2; p_class p; p_id p; x00; x00] with [xb5; x62; p_class p; p_id p; x00; x00].
  rewrite <- app_assoc. unfold extended. set (v := out ++ [xb5; x62; p_class p; p_id p; x00; x00] ++ w).
  assert (Lv : 6 <= lenN v).
  { unfold v. rewrite !lenN_app. change (lenN [xb5; x62; p_class p; p_id p; x00; x00]) with 6. lia. }
  change (get (le_bytes 8 (lenN w)) 0) with (Ret (n2b (lenN w))).
  change (get (le_bytes 8 (lenN w)) 1) with (Ret (n2b (lenN w / 256))). cbn [bind].
  rewrite set_at_ok by lia. cbn [bind].
  assert (E5 : dropN (4 + 1) v = nthN v 5 :: dropN 6 v) by (apply dropN_nthN; lia).
  rewrite E5.
  replace (takeN 4 v ++ n2b (lenN w) :: nthN v 5 :: dropN 6 v)
    with ((takeN 4 v ++ [n2b (lenN w)]) ++ nthN v 5 :: dropN 6 v) by now rewrite <- app_assoc.
  rewrite set_at_app by (rewrite lenN_app, lenN_takeN; change (lenN [_]) with 1; lia). cbn [bind].
  rewrite <- app_assoc. cbn [app]. set (u := takeN 4 v ++ _ :: _ :: dropN 6 v).
  rewrite slice_from_ok.
  2: { unfold u. rewrite lenN_app, lenN_takeN. lia. }
  cbn [bind]. rewrite ubx_checksum_correct. unfold fletcher. rewrite <- app_assoc. reflexivity.
Qed.

Lemma extended_empty c i payload : extended c i payload [] = frame c i payload.
Proof. reflexivity. Qed.

(** ** Poll requests *)
Lemma request_bytes_spec r : request_bytes r = Ret (frame (req_class r) (req_id r) []).
Proof.
  unfold request_bytes.
  change (slice [SYNC_CHAR_1; SYNC_CHAR_2; req_class r; req_id r; x00; x00; x00; x00] 2 6)
    with (Ret [req_class r; req_id r; x00; x00]). cbn [bind].
  rewrite ubx_checksum_correct.
  rewrite (set_at_ok _ 6) by reflexivity. cbn [bind].
  rewrite (set_at_ok _ 7) by reflexivity. reflexivity.
Qed.
