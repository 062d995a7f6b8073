(** * C77: the model of the parser is what the text of parser.rs and ubx_packets.rs says

    The functions are read from the text of the two files (Lang.v) and executed by the interpreter of Exec.v, which knows
    the language and the few library functions they use and nothing about UBX.  Every theorem holds for all arguments.
    [call] is the program which the text is; [depth] bounds the nesting of calls, [n] the iterations of [while]. *)
From Coq Require Import String List NArith Bool Lia.
From Verif Require Import Base Buffers DualBuffer Parser Checksum GenSend Tokens Lang Exec SourceParser SourceUbx SpecExec
  SpecFrame SpecParser ProofParser ProofChecksum ProofSend ProofExec PropParser.
Import ListNotations.
Open Scope N_scope.
Open Scope list_scope.

Ltac conjs := repeat lazymatch goal with |- _ /\ _ => split end.
Ltac depth4 depth := destruct depth as [|[|[|[|depth]]]]; try lia.

(** ** The functions of the files *)

(** Every function with a body in the two files is read; these are their types and names.  [index_range] is the
    [Index<Range<usize>>] implementation. *)
Theorem text_functions :
  option_map (map (fun f => (lf_type f, fn_key f))) (fns_of (tokens_of parser_rs)) =
    Some [("trait UnderlyingBuffer", "find"); ("trait UnderlyingBuffer", "is_empty");
          ("Vec", "clear"); ("Vec", "len"); ("Vec", "max_capacity"); ("Vec", "extend_from_slice"); ("Vec", "drain"); ("Vec", "find");
          ("FixedLinearBuffer", "new"); ("FixedLinearBuffer", "index_range"); ("FixedLinearBuffer", "index");
          ("FixedLinearBuffer", "clear"); ("FixedLinearBuffer", "len"); ("FixedLinearBuffer", "max_capacity");
          ("FixedLinearBuffer", "extend_from_slice"); ("FixedLinearBuffer", "drain"); ("FixedLinearBuffer", "find");
          ("Parser", "default"); ("Parser", "new"); ("Parser", "is_buffer_empty"); ("Parser", "buffer_len"); ("Parser", "consume");
          ("DualBuffer", "index"); ("DualBuffer", "new"); ("DualBuffer", "clear"); ("DualBuffer", "drain"); ("DualBuffer", "len");
          ("DualBuffer", "potential_lost_bytes"); ("DualBuffer", "can_drain_and_take"); ("DualBuffer", "peek_raw");
          ("DualBuffer", "take"); ("DualBuffer", "drop");
          ("UbxChecksumCalc", "new"); ("UbxChecksumCalc", "update"); ("UbxChecksumCalc", "result");
          ("ParserIter", "find_sync"); ("ParserIter", "extract_packet"); ("ParserIter", "next")]%string /\
  option_map (map (fun f => (lf_type f, fn_key f))) (fns_of (tokens_of ubx_packets_rs)) =
    Some [("", "ubx_checksum"); ("UbxChecksumCalc", "update"); ("UbxChecksumCalc", "result");
          ("Vec", "reserve_allocate"); ("Vec", "write");
          ("UbxPacketRequest", "PACKET_LEN"); ("UbxPacketRequest", "request_for"); ("UbxPacketRequest", "request_for_unknown");
          ("UbxPacketRequest", "into_packet_bytes")]%string.
Proof. split; [rewrite parser_tokens_eq, parser_fns_eq|rewrite ubx_tokens_eq, ubx_fns_eq]; reflexivity. Qed.

(** ** Buffers: parser.rs 7-162 *)

(** The provided methods of the trait, for any buffer, and the [Vec] implementation *)
Theorem text_vec_buffer :
  forall (T P : Type) (ops : buf_ops T) (mp : byte -> byte -> list byte -> res (result P)) mx n depth,
    (1 <= depth)%nat ->
    let call := text_call ops mp mx parser_rs n depth in
    (forall t v, call "trait UnderlyingBuffer" "find" [VBuf t; vu8 v] =
       Some (ret_map (fun o => (VBuf t, option_v vusize o)) (b_find_default (b_len ops) (b_index ops) t v)))%string /\
    (forall t, call "trait UnderlyingBuffer" "is_empty" [VBuf t] = Some (Ret (VBuf t, VBool (b_is_empty ops t))))%string /\
    (forall l, call "Vec" "clear" [VBytes l] = Some (ret_map (fun l' => (VBytes l', vunit)) (b_clear vec_ops l)))%string /\
    (forall l, call "Vec" "len" [VBytes l] = Some (Ret (VBytes l, vusize (b_len vec_ops l))))%string /\
    (forall l, call "Vec" "max_capacity" [VBytes l] = Some (Ret (VBytes l, vusize (b_max_cap vec_ops l))))%string /\
    (forall l o, call "Vec" "extend_from_slice" [VBytes l; VBytes o] =
       Some (ret_map (fun p => (VBytes (fst p), vusize (snd p))) (b_extend vec_ops l o)))%string /\
    (forall l c, call "Vec" "drain" [VBytes l; vusize c] = Some (ret_map (fun l' => (VBytes l', vunit)) (b_drain vec_ops l c)))%string /\
    (forall l v, call "Vec" "find" [VBytes l; vu8 v] = Some (ret_map (fun o => (VBytes l, option_v vusize o)) (b_find vec_ops l v)))%string.
Proof.
  intros T P ops mp mx n depth Hd call. subst call. rewrite parser_call_eq. destruct depth as [|depth]; [lia|].
  conjs; intros.
  - apply find_call.
  - apply is_empty_call.
  - apply v_clear_call.
  - apply v_len_call.
  - apply v_max_call.
  - apply v_extend_call.
  - apply v_drain_call.
  - apply v_find_call.
Qed.

Theorem text_fixed_buffer :
  forall (T P : Type) (ops : buf_ops T) (mp : byte -> byte -> list byte -> res (result P)) mx n depth,
    (2 <= depth)%nat ->
    let call := text_call ops mp mx parser_rs n depth in
    (forall l, call "FixedLinearBuffer" "new" [VBytes l] = Some (Ret (vunit, flb_v (flb_new l))))%string /\
    (forall f a b, call "FixedLinearBuffer" "index_range" [flb_v f; VRng (Some a) (Some b)] =
       Some (ret_map (fun l => (flb_v f, VBytes l)) (b_range flb_ops f a b)))%string /\
    (forall f i, call "FixedLinearBuffer" "index" [flb_v f; vusize i] =
       Some (ret_map (fun b => (flb_v f, vu8 b)) (b_index flb_ops f i)))%string /\
    (forall f, call "FixedLinearBuffer" "clear" [flb_v f] = Some (ret_map (fun f' => (flb_v f', vunit)) (b_clear flb_ops f)))%string /\
    (forall f, call "FixedLinearBuffer" "len" [flb_v f] = Some (Ret (flb_v f, vusize (b_len flb_ops f))))%string /\
    (forall f, call "FixedLinearBuffer" "max_capacity" [flb_v f] = Some (Ret (flb_v f, vusize (b_max_cap flb_ops f))))%string /\
    (forall f o, call "FixedLinearBuffer" "extend_from_slice" [flb_v f; VBytes o] =
       Some (ret_map (fun p => (flb_v (fst p), vusize (snd p))) (b_extend flb_ops f o)))%string /\
    (forall f c, call "FixedLinearBuffer" "drain" [flb_v f; vusize c] =
       Some (ret_map (fun f' => (flb_v f', vunit)) (b_drain flb_ops f c)))%string /\
    (forall f v, call "FixedLinearBuffer" "find" [flb_v f; vu8 v] =
       Some (ret_map (fun o => (flb_v f, option_v vusize o)) (b_find flb_ops f v)))%string.
Proof.
  intros T P ops mp mx n depth Hd call. subst call. rewrite parser_call_eq. destruct depth as [|[|depth]]; try lia.
  conjs; intros.
  - apply f_new_call.
  - apply f_range_call.
  - apply f_index_call.
  - apply f_clear_call.
  - apply f_len_call.
  - apply f_max_call.
  - apply f_extend_call.
  - apply f_drain_call.
  - apply f_find_call.
Qed.

(** ** The view of the pending bytes: parser.rs 208-386 *)

Theorem text_dual_buffer :
  forall (T P : Type) (ops : buf_ops T) (mp : byte -> byte -> list byte -> res (result P)) mx n depth,
    (2 <= depth)%nat ->
    let call := text_call ops mp mx parser_rs n depth in
    (forall t l, call "DualBuffer" "new" [VBuf t; VBytes l] = Some (Ret (vunit, dual_v (d_create t l))))%string /\
    (forall d i, call "DualBuffer" "index" [dual_v d; vusize i] = Some (ret_map (fun b => (dual_v d, vu8 b)) (d_index ops d i)))%string /\
    (forall d, call "DualBuffer" "clear" [dual_v d] = Some (ret_map (fun d' => (dual_v d', vunit)) (d_clear ops d)))%string /\
    (forall d c, call "DualBuffer" "drain" [dual_v d; vusize c] = Some (ret_map (fun d' => (dual_v d', vunit)) (d_drain ops d c)))%string /\
    (forall d, call "DualBuffer" "len" [dual_v d] = Some (ret_map (fun l => (dual_v d, vusize l)) (d_len ops d)))%string /\
    (forall d, call "DualBuffer" "potential_lost_bytes" [dual_v d] =
       Some (ret_map (fun l => (dual_v d, vusize l)) (d_potential_lost ops d)))%string /\
    (forall d c k, call "DualBuffer" "can_drain_and_take" [dual_v d; vusize c; vusize k] =
       Some (ret_map (fun r => (dual_v d, VBool r)) (d_can_drain_and_take ops d c k)))%string /\
    (forall d a b, call "DualBuffer" "peek_raw" [dual_v d; VRng (Some a) (Some b)] =
       Some (ret_map (fun r => (dual_v d, pair_v VBytes VBytes r)) (d_peek_raw ops d a b)))%string /\
    (forall d c, call "DualBuffer" "take" [dual_v d; vusize c] =
       Some (ret_map (fun r => (dual_v (snd r), result_v VBytes (fst r))) (d_take ops d c)))%string /\
    (forall d, call "DualBuffer" "drop" [dual_v d] =
       Some (ret_map (fun t => (dual_v (mk_dual t (d_off d) (d_new d) (d_noff d)), vunit)) (d_drop ops d)))%string.
Proof.
  intros T P ops mp mx n depth Hd call. subst call. rewrite parser_call_eq. destruct depth as [|[|depth]]; try lia.
  conjs; intros.
  - apply d_new_call.
  - apply d_index_call.
  - apply d_clear_call.
  - apply d_drain_call.
  - apply d_len_call.
  - apply d_lost_call.
  - apply d_can_call.
  - apply d_peek_call.
  - apply d_take_call.
  - apply d_drop_call.
Qed.

(** ** The parser, its iterator and the checksum: parser.rs 164-207, 388-529 *)

Theorem text_parser :
  forall (T P : Type) (ops : buf_ops T) (mp : byte -> byte -> list byte -> res (result P)) mx n depth,
    (4 <= depth)%nat ->
    let call := text_call ops mp mx parser_rs n depth in
    call "Parser" "default" [] = Some (Ret (vunit, VAdt ["Parser"] [("buf", VBytes [])]))%string /\
    (forall t, call "Parser" "new" [VBuf t] = Some (Ret (vunit, parser_v t)))%string /\
    (forall t, call "Parser" "is_buffer_empty" [parser_v t] = Some (Ret (parser_v t, VBool (is_buffer_empty ops t))))%string /\
    (forall t, call "Parser" "buffer_len" [parser_v t] = Some (Ret (parser_v t, vusize (buffer_len ops t))))%string /\
    (forall t l, call "Parser" "consume" [parser_v t; VBytes l] =
       Some (ret_map (fun d => (parser_v t, iter_v d)) (consume ops t l)))%string /\
    (forall d, call "ParserIter" "find_sync" [iter_v d] =
       Some (ret_map (fun o => (iter_v d, option_v vusize o)) (find_sync ops d)))%string /\
    (forall d k, call "ParserIter" "extract_packet" [iter_v d; vusize k] =
       Some (ret_map (fun r => (iter_v (snd r), option_v (result_v VPack) (fst r))) (extract_packet ops mp d k)))%string /\
    (forall d, call "ParserIter" "next" [iter_v d] =
       Some (ret_map (fun r => (iter_v (snd r), option_v (result_v VPack) (fst r))) (next_loop ops mp mx n d)))%string /\
    call "UbxChecksumCalc" "new" [] = Some (Ret (vunit, cksum_v cksum_new))%string /\
    (forall s l, call "UbxChecksumCalc" "update" [cksum_v s; VBytes l] = Some (Ret (cksum_v (cksum_update s l), vunit)))%string /\
    (forall s, call "UbxChecksumCalc" "result" [cksum_v s] = Some (Ret (cksum_v s, pair_v vu8 vu8 (cksum_result s))))%string.
Proof.
  intros T P ops mp mx n depth Hd call. subst call. rewrite parser_call_eq. depth4 depth.
  conjs; intros.
  - apply p_default_call.
  - apply p_new_call.
  - apply p_empty_call.
  - apply p_len_call.
  - apply p_consume_call.
  - apply i_find_call.
  - apply i_extract_call.
  - apply i_next_call.
  - apply c_new_call.
  - apply c_update_call.
  - apply c_result_call.
Qed.

(** ** ubx_packets.rs *)

(** The checksum functions, the [Vec] writer and the requests.  A [Vec] never has more than [isize::MAX] bytes. *)
Theorem text_ubx_packets :
  forall (T P : Type) (ops : buf_ops T) (mp : byte -> byte -> list byte -> res (result P)) mx n depth,
    (2 <= depth)%nat ->
    let call := text_call ops mp mx ubx_packets_rs n depth in
    (forall l, call "" "ubx_checksum" [VBytes l] =
       Some (Ret (vunit, VTuple [vu8 (n2b (sum1 l)); vu8 (n2b (sum2 l))])))%string /\
    (forall s l, call "UbxChecksumCalc" "update" [cksum_v s; VBytes l] = Some (Ret (cksum_v (cksum_update s l), vunit)))%string /\
    (forall s, call "UbxChecksumCalc" "result" [cksum_v s] = Some (Ret (cksum_v s, pair_v vu8 vu8 (cksum_result s))))%string /\
    (forall l c, call "Vec" "reserve_allocate" [VBytes l; vusize c] = Some (Ret (VBytes l, vctor "Ok" vunit)))%string /\
    (forall l o, lenN l + lenN o <= isize_max ->
       call "Vec" "write" [VBytes l; VBytes o] = Some (Ret (VBytes (l ++ o), vctor "Ok" vunit)))%string /\
    (forall class id, call "UbxPacketRequest" "request_for_unknown" [vu8 class; vu8 id] =
       Some (Ret (vunit, VAdt ["UbxPacketRequest"] [("req_class", vu8 class); ("req_id", vu8 id)])))%string /\
    (forall class id, text_call_for ops mp mx class id ubx_packets_rs n depth "UbxPacketRequest" "request_for" [] =
       Some (Ret (vunit, VAdt ["UbxPacketRequest"] [("req_class", vu8 class); ("req_id", vu8 id)])))%string /\
    (forall class id, let r := VAdt ["UbxPacketRequest"] [("req_class", vu8 class); ("req_id", vu8 id)] in
       call "UbxPacketRequest" "into_packet_bytes" [r] = Some (Ret (r, VBytes (frame class id []))))%string.
Proof.
  intros T P ops mp mx n depth Hd call. subst call. rewrite ubx_call_eq. destruct depth as [|[|depth]]; try lia.
  conjs; intros.
  - rewrite u_checksum_call, ubx_checksum_correct. reflexivity.
  - apply u_update_call.
  - apply u_result_call.
  - apply u_reserve_call.
  - now apply u_write_call.
  - apply u_unknown_call.
  - unfold text_call_for. rewrite ubx_tokens_eq, ubx_fns_eq, ubx_structs_eq. erewrite link_fn by reflexivity.
    now apply u_for_text.
  - change (VAdt _ _) with (request_v (T:=T) (P:=P) (request_for_unknown class id)) in r. subst r.
    rewrite u_bytes_call, request_bytes_spec. reflexivity.
Qed.

(** ** Programs *)

(** Any program which creates a parser on any buffer, feeds it with chunks and asks each iterator any number of times gets
    from the text exactly the answers of the model's [run_history], or panics exactly if the model does. *)
Theorem text_histories :
  forall (T P : Type) (ops : buf_ops T) (mp : byte -> byte -> list byte -> res (result P)) mx t h,
    run_history ops mp mx t h <> Diverge ->
    exists n0, forall n depth, (n0 <= n)%nat -> (4 <= depth)%nat ->
      user_history (text_call ops mp mx parser_rs n depth) (parser_v t) h =
        Some (ret_map (fun r => (map (map (option_v (result_v VPack))) (fst r), parser_v (snd r))) (run_history ops mp mx t h)).
Proof.
  intros T P ops mp mx t h H. destruct (history_text ops mp mx h t H) as [n0 H0]. exists n0. intros n depth Hn Hd.
  rewrite parser_call_eq. depth4 depth. now apply H0.
Qed.

(** The same for programs which ask each iterator until it answers [None] *)
Theorem text_drained_histories :
  forall (T P : Type) (ops : buf_ops T) (mp : byte -> byte -> list byte -> res (result P)) mx t cs,
    feed_all ops mp mx t cs <> Diverge ->
    exists n0, forall n depth, (n0 <= n)%nat -> (4 <= depth)%nat ->
      user_program (text_call ops mp mx parser_rs n depth) n t cs =
        Some (ret_map (fun r => (map (result_v VPack) (fst r), parser_v (snd r))) (feed_all ops mp mx t cs)).
Proof.
  intros T P ops mp mx t cs H. destruct (feed_all_text ops mp mx cs t H) as [n0 H0]. exists n0. intros n depth Hn Hd.
  rewrite parser_call_eq. depth4 depth. unfold user_program. rewrite p_new_call. now apply H0.
Qed.

(** The text of parser.rs, executed: for every stream and every way of cutting it into chunks, a parser with a [Vec] answers
    with the frames and checksum errors which the reference scanner of SpecFrame.v finds in the concatenation, and keeps the
    bytes which the scanner leaves. *)
Theorem text_is_scanner :
  forall (P : Type) (mp : byte -> byte -> list byte -> res (result P)) mx f cs,
    mx <= 65535 -> dispatches mp mx f -> chunks_fit mx cs ->
    exists n0, forall n depth, (n0 <= n)%nat -> (4 <= depth)%nat ->
      user_program (text_call vec_ops mp mx parser_rs n depth) n [] cs =
        Some (Ret (map (result_v VPack) (map (outcome f) (fst (scan mx (concat cs)))),
                   parser_v (snd (scan mx (concat cs))))).
Proof.
  intros P mp mx f cs Hm Hf Hc. pose proof (parser_is_scanner P mp mx f cs Hm Hf Hc) as E.
  destruct (text_drained_histories _ _ vec_ops mp mx [] cs) as [n0 H0]; [now rewrite E|].
  exists n0. intros n depth Hn Hd. rewrite H0 by assumption. now rewrite E.
Qed.

(** The text executed on garbage, a frame with a wrong checksum and a frame cut in two, with both buffers *)
Example text_is_scanner_ex :
  let bad := [xb5; x62; x05; x01; x00; x00; x01; x02] in
  let cs := [[x00; xb5] ++ bad ++ [xb5; x62; x01]; [x07; x00; x00; x08; x19; xb5]] in
  chunks_fit 8176 cs /\
  user_program (text_call vec_ops raw_mp 8176 parser_rs 20 4) 20 [] cs =
    Some (Ret ([vctor "Err" (VAdt ["ParserError"; "InvalidChecksum"] [("expect", VNum IU16 513); ("got", VNum IU16 5894)]);
                vctor "Ok" (VPack (x01, x07, []))], parser_v [xb5]))%string /\
  match user_program (text_call flb_ops raw_mp 8176 parser_rs 20 4) 20 (flb_new [x00; x00]) cs with
  | Some (Ret (rs, _)) =>
      rs = [vctor "Err" (VAdt ["ParserError"; "InvalidChecksum"] [("expect", VNum IU16 513); ("got", VNum IU16 5894)]);
            vctor "Err" (VAdt ["ParserError"; "OutOfMemory"] [("required_size", vusize 2050)])]%string
  | _ => False
  end.
Proof.
  cbv zeta. rewrite !parser_call_eq. split; [|split; vm_compute; reflexivity].
  intros c H. cbn in H. repeat (destruct H as [<-|H]; [vm_compute; discriminate|]). destruct H.
Qed.

Example text_ubx_packets_ex :
  text_call vec_ops raw_mp 8176 ubx_packets_rs 1 1 "" "ubx_checksum" [VBytes [x05; x01; x00; x00]] =
    Some (Ret (vunit, VTuple [vu8 x06; vu8 x17]))%string.
Proof. rewrite ubx_call_eq. vm_compute. reflexivity. Qed.

Print Assumptions text_functions.
Print Assumptions text_vec_buffer.
Print Assumptions text_fixed_buffer.
Print Assumptions text_dual_buffer.
Print Assumptions text_parser.
Print Assumptions text_ubx_packets.
Print Assumptions text_histories.
Print Assumptions text_drained_histories.
Print Assumptions text_is_scanner.
