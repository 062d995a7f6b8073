(** * The code generators: ublox_derive/src/output.rs

    Each [quote!] of output.rs is a template here, with the text of the source; each function fills in the same variables.
    The result is the token list which the macro returns, or a panic.  (GenRecv.v, GenSend.v, Enums.v and Dispatch.v say
    what the generated code does; PropCode.v proves that they agree with this text.)  Left out: overflow of the offsets, for
    fields of an impossible size. *)
From Coq Require Import String Ascii List NArith Bool.
From Verif Require Import Base Tokens Syntax PackDesc Enums Macro Quote.
Import ListNotations.
Open Scope N_scope.
Open Scope list_scope.

(** types.rs 153-174: methods of [PackField] *)
Definition has_intermediate_type (f : field_decl) : bool := match fd_map f with Some _ => true | None => false end.
Definition intermediate_type (f : field_decl) : list token := match fd_map f with Some d => md_ty d | None => fd_ty f end.
Definition intermediate_field_name (f : field_decl) : string := match fd_alias f with Some a => a | None => fd_name f end.
(** For a field which [parse_fields] has accepted: an array type is one of bytes *)
Definition is_field_raw_ty_byte_array (f : field_decl) : bool := match fd_raw f with Bytes _ => true | _ => false end.

(** ** [get_raw_field_code]: output.rs 826-851 *)

(** 835 *)
Definition t_byte := Eval vm_compute in template "#data[#byte_off]".
(** 843 *)
Definition t_as_ref := Eval vm_compute in template "&#data[#cur_off .. (#cur_off + #size_bytes)]".
(** 845 *)
Definition t_array := Eval vm_compute in template "[#(#bytes),*]".
(** 847 *)
Definition t_from_le := Eval vm_compute in template "<#raw_ty>::from_le_bytes([#(#bytes),*])".
(** 849 *)
Definition t_one := Eval vm_compute in template "#data[#cur_off]".

(** 833-836: the loop *)
Fixpoint byte_codes (cur_off : N) (data : list token) (n : nat) : list (list token) :=
  match n with
  | O => []
  | S n' => fill [("data", One data); ("byte_off", qusize cur_off)]%string t_byte :: byte_codes (cur_off + 1) data n'
  end.

Definition get_raw_field_code (f : field_decl) (cur_off : N) (data : list token) : mres (list token) :=
  match size_bytes (fd_raw f) with
  | None => Crash                                                                    (* 829: unimplemented!() *)
  | Some size =>
      let bytes := byte_codes cur_off data (N.to_nat size) in
      let raw_ty := fd_ty f in
      Good (if fd_get_as_ref f then
              fill [("data", One data); ("cur_off", qusize cur_off); ("size_bytes", qusize size)]%string t_as_ref
            else if is_field_raw_ty_byte_array f then fill [("bytes", Many bytes)]%string t_array
            else if negb (size =? 1) || tokens_eqb raw_ty [TIdent "i8"] then
              fill [("raw_ty", One raw_ty); ("bytes", Many bytes)]%string t_from_le
            else fill [("data", One data); ("cur_off", qusize cur_off)]%string t_one)
  end.

(** ** [generate_debug_impl]: output.rs 11-28 *)

(** 15-17 *)
Definition t_debug_field := Eval vm_compute in template ".field(stringify!(#field_name), &self.#field_accessor())".
(** 19-27 *)
Definition t_debug := Eval vm_compute in template "
        impl core::fmt::Debug for #ref_name<'_> {
            fn fmt(&self, f: &mut core::fmt::Formatter<'_>) -> core::fmt::Result {
                f.debug_struct(#pack_name)
                    #(#fields)*
                    .finish()
            }
        }".

Definition generate_debug_impl (pack_name ref_name : string) (d : pack_decl) : list token :=
  fill [("ref_name", qident ref_name); ("pack_name", qstr pack_name);
        ("fields", Many (map (fun f => fill [("field_name", qident (fd_name f));
                                             ("field_accessor", qident (intermediate_field_name f))]%string t_debug_field)
                             (pd_fields d)))]%string t_debug.

(** ** [generate_serialize_impl]: output.rs 30-75 *)

(** 39-41 *)
Definition t_ser_field := Eval vm_compute in template
  "state.serialize_entry(stringify!(#field_name), &self.#field_accessor())?;".
(** 43-48 *)
Definition t_ser_iter := Eval vm_compute in template "
                state.serialize_entry(
                    stringify!(#field_name),
                    &crate::ubx_packets::FieldIter(self.#field_accessor())
                )?;".
(** 51-74 *)
Definition t_ser := Eval vm_compute in template "
        #[cfg(feature = ""serde"")]
        impl SerializeUbxPacketFields for #ref_name<'_> {
            fn serialize_fields<S>(&self, state: &mut S) -> Result<(), S::Error>
            where
                S: serde::ser::SerializeMap,
            {
                #(#fields)*
                Ok(())
            }
        }

        #[cfg(feature = ""serde"")]
        impl serde::Serialize for #ref_name<'_> {
            fn serialize<S>(&self, serializer: S) -> Result<S::Ok, S::Error>
            where
                S: serde::Serializer,
            {
                let mut state = serializer.serialize_map(None)?;
                self.serialize_fields(&mut state)?;
                state.end()
            }
        }".

Definition serialize_field (f : field_decl) : list token :=
  let e := [("field_name", qident (fd_name f)); ("field_accessor", qident (intermediate_field_name f))]%string in
  if match size_bytes (fd_raw f) with Some _ => true | None => false end || fd_is_optional f
  then fill e t_ser_field else fill e t_ser_iter.

Definition generate_serialize_impl (ref_name : string) (d : pack_decl) : list token :=
  fill [("ref_name", qident ref_name); ("fields", Many (map serialize_field (pd_fields d)))]%string t_ser.

(** ** [generate_recv_code_for_packet]: output.rs 77-274 *)

Definition self_0 : list token := Eval vm_compute in fill [] (template "self.0").
Definition payload_toks : list token := Eval vm_compute in fill [] (template "payload").
(** 98, 186 *)
Definition slice_ty : list token := Eval vm_compute in fill [] (template "&[u8]").

(** 93, 163 *)
Definition t_let := Eval vm_compute in template "let val = #get_raw;".
(** 104-111 *)
Definition t_raw_getter := Eval vm_compute in template "
                    #[doc = #field_comment]
                    #[inline]
                    pub fn #get_raw_name(&self) -> #raw_ty {
                        #(#get_value_lines)*
                        val
                    }".
(** 135-142 *)
Definition t_getter := Eval vm_compute in template "
                    #[doc = #field_comment]
                    #[inline]
                    pub fn #get_name(&self) -> #ty {
                        #(#get_value_lines)*
                        val
                    }".
(** 116-124 *)
Definition t_validator := Eval vm_compute in template "
                        let val = #get_val;
                        if !#is_valid_fn(val) {
                            return Err(ParserError::InvalidField{
                                packet: #pack_name,
                                field: stringify!(#get_name)
                            });
                        }".
(** 127-129 *)
Definition t_from := Eval vm_compute in template "let val = #from_fn(val);".
(** 133 *)
Definition t_scale := Eval vm_compute in template "let val = val * #scale;".
(** 148-153 *)
Definition t_range := Eval vm_compute in template "
                    {
                        let offset = #off #(+ self.#size_fns())*;
                        offset..offset+self.#size_fn()
                    }".
(** 157 *)
Definition t_rest := Eval vm_compute in template "#off..".
(** 160 *)
Definition t_slice := Eval vm_compute in template "&self.0[#range]".
(** 166-168 *)
Definition t_from_tail := Eval vm_compute in template "#from_fn(val)".
(** 172-180 *)
Definition t_validator_rest := Eval vm_compute in template "
                        let val = &payload[#off..];
                        if !#is_valid_fn(val) {
                            return Err(ParserError::InvalidField{
                                packet: #pack_name,
                                field: stringify!(#get_name)
                            });
                        }".
(** 188-194 *)
Definition t_getter_rest := Eval vm_compute in template "
                #[doc = #field_comment]
                #[inline]
                pub fn #get_name(&self) -> #out_ty {
                    #(#get_value_lines)*
                }".

(** 91-143: a field with a size: its getters and its validators *)
Definition sized_code (pack_name : string) (off : N) (f : field_decl) : mres (list (list token) * list (list token)) :=
  let ty := intermediate_type f in
  let get_name := intermediate_field_name f in
  do get_raw <- get_raw_field_code f off self_0;
  let new_line := fill [("get_raw", One get_raw)]%string t_let in
  let scale_line := match fd_scale f with
                    | Some s => [fill [("scale", One [TFloat s])]%string t_scale]
                    | None => []
                    end in
  match fd_map f with
  | Some out_ty =>
      let raw_ty := if is_field_raw_ty_byte_array f then slice_ty else fd_ty f in
      do get_val <- get_raw_field_code f off payload_toks;
      Good ([fill [("field_comment", qstr (fd_comment f)); ("get_raw_name", qident (get_name ++ "_raw"));
                   ("raw_ty", One raw_ty); ("get_value_lines", Many [new_line])]%string t_raw_getter;
             fill [("field_comment", qstr (fd_comment f)); ("get_name", qident get_name); ("ty", One ty);
                   ("get_value_lines",
                    Many (new_line :: fill [("from_fn", One (md_from out_ty))]%string t_from :: scale_line))]%string t_getter],
            if fd_may_fail f
            then [fill [("get_val", One get_val); ("is_valid_fn", One (md_is_valid out_ty)); ("pack_name", qstr pack_name);
                        ("get_name", qident get_name)]%string t_validator]
            else [])
  | None =>
      Good ([fill [("field_comment", qstr (fd_comment f)); ("get_name", qident get_name); ("ty", One ty);
                   ("get_value_lines", Many (new_line :: scale_line))]%string t_getter], [])
  end.

(** 147-194: a field without size *)
Definition unsized_code (pack_name : string) (off : N) (size_fns : list (list token)) (f : field_decl)
  : list (list token) * list (list token) :=
  let get_name := intermediate_field_name f in
  let range := match fd_size_fn f with
               | Some size_fn =>
                   fill [("off", qusize off); ("size_fns", Many size_fns); ("size_fn", One size_fn)]%string t_range
               | None => fill [("off", qusize off)]%string t_rest
               end in
  let get_raw := fill [("range", One range)]%string t_slice in
  let getter lines :=
    fill [("field_comment", qstr (fd_comment f)); ("get_name", qident get_name);
          ("out_ty", One (if has_intermediate_type f then intermediate_type f else slice_ty));
          ("get_value_lines", Many lines)]%string t_getter_rest in
  match fd_map f with
  | Some out_ty =>
      ([getter [fill [("get_raw", One get_raw)]%string t_let; fill [("from_fn", One (md_from out_ty))]%string t_from_tail]],
       if fd_may_fail f
       then [fill [("off", qusize off); ("is_valid_fn", One (md_is_valid out_ty)); ("pack_name", qstr pack_name);
                   ("get_name", qident get_name)]%string t_validator_rest]
       else [])
  | None => ([getter [get_raw]], [])
  end.

(** 86-196: the loop; [getters] and [field_validators] *)
Fixpoint recv_fields (pack_name : string) (off : N) (size_fns : list (list token)) (fs : list field_decl)
  : mres (list (list token) * list (list token)) :=
  match fs with
  | [] => Good ([], [])
  | f :: fs' =>
      match size_bytes (fd_raw f) with
      | Some size =>
          do (g, v) <- sized_code pack_name off f;
          do (gs, vs) <- recv_fields pack_name (off + size) size_fns fs';
          Good (g ++ gs, v ++ vs)
      | None =>
          if match fs' with [] => true | _ => false end || match fd_size_fn f with Some _ => true | None => false end
          then
            let (g, v) := unsized_code pack_name off size_fns f in
            do (gs, vs) <- recv_fields pack_name off
                             (match fd_size_fn f with Some s => size_fns ++ [s] | None => size_fns end) fs';
            Good (g ++ gs, v ++ vs)
          else Crash                                                                 (* 145: assert! *)
      end
  end.

(** 199-210 *)
Definition t_validate_fixed := Eval vm_compute in template "
            fn validate(payload: &[u8]) -> Result<(), ParserError> {
                let expect = #payload_len;
                let got = payload.len();
                if got ==  expect {
                    #(#field_validators)*
                    Ok(())
                } else {
                    Err(ParserError::InvalidPacketLen{ packet: #pack_name, expect, got })
                }
            }".
(** 222-224 *)
Definition t_min_size := Eval vm_compute in template "#size;".
(** 229-236 *)
Definition t_min_size_fns := Eval vm_compute in template "
                {
                    if got < #size {
                        return Err(ParserError::InvalidPacketLen{ packet: #pack_name, expect: #size, got });
                    }
                    #size #(+ #ref_name(payload).#size_fns())*
                }".
(** 239-250 *)
Definition t_validate_min := Eval vm_compute in template "
            fn validate(payload: &[u8]) -> Result<(), ParserError> {
                let got = payload.len();
                let min = #min_size;
                if got >= min {
                    #(#field_validators)*
                    Ok(())
                } else {
                    Err(ParserError::InvalidPacketLen{ packet: #pack_name, expect: min, got })
                }
            }".

(** 212-216 *)
Definition size_fn_codes (d : pack_decl) : list (list token) :=
  flat_map (fun f => match fd_size_fn f with Some s => [s] | None => [] end) (pd_fields d).

(** 198-251: [validator].  Sizes: types.rs 15-25 *)
Definition validator_code (d : pack_decl) (field_validators : list (list token)) : mres (list token) :=
  let pack_name := pd_name d in
  do size <- decl_size 0 (pd_fields d);
  match size with
  | Some payload_len =>
      Good (fill [("payload_len", qusize payload_len); ("field_validators", Many field_validators);
                  ("pack_name", qstr pack_name)]%string t_validate_fixed)
  | None =>
      do min_size <-
        match size_fn_codes d with
        | [] =>
            do s <- decl_size 0 (removelast (pd_fields d));
            match s with
            | Some size => Good (fill [("size", qusize size)]%string t_min_size)
            | None => Crash                                                          (* 221: expect *)
            end
        | fns =>
            do s <- decl_size 0 (filter (fun f => match fd_size_fn f with None => true | Some _ => false end) (pd_fields d));
            Good (fill [("size", qusize (match s with Some n => n | None => 0 end)); ("pack_name", qstr pack_name);
                        ("ref_name", qident (pack_name ++ "Ref")); ("size_fns", Many fns)]%string t_min_size_fns)
        end;
      Good (fill [("min_size", One min_size); ("field_validators", Many field_validators);
                  ("pack_name", qstr pack_name)]%string t_validate_min)
  end.

(** 256-273 *)
Definition t_recv := Eval vm_compute in template "
        #[doc = #struct_comment]
        #[doc = ""Contains a reference to an underlying buffer, contains accessor methods to retrieve data.""]
        pub struct #ref_name<'a>(&'a [u8]);
        impl<'a> #ref_name<'a> {
            #[inline]
            pub fn as_bytes(&self) -> &[u8] {
                self.0
            }

            #(#getters)*

            #validator
        }

        #debug_impl
        #serialize_impl".

Definition generate_recv_code_for_packet (d : pack_decl) : mres (list token) :=
  let ref_name := (pd_name d ++ "Ref")%string in
  do (getters, field_validators) <- recv_fields (pd_name d) 0 [] (pd_fields d);
  do validator <- validator_code d field_validators;
  Good (fill [("struct_comment", qstr (pd_comment d)); ("ref_name", qident ref_name); ("getters", Many getters);
              ("validator", One validator);
              ("debug_impl", One (generate_debug_impl (pd_name d) ref_name d));
              ("serialize_impl", One (generate_serialize_impl ref_name d))]%string t_recv).

(** ** [generate_types_for_packet]: output.rs 276-300 *)

(** 281 *)
Definition t_some := Eval vm_compute in template "Some(#x)".
(** 282 *)
Definition t_none := Eval vm_compute in template "None".
(** 289-299 *)
Definition t_types := Eval vm_compute in template "
        #[doc = #struct_comment]
        pub struct #name;
        impl UbxPacketMeta for #name {
            const CLASS: u8 = #class;
            const ID: u8 = #id;
            const FIXED_PAYLOAD_LEN: Option<u16> = #fixed_payload_len;
            const MAX_PAYLOAD_LEN: u16 = #max_payload_len;
        }".

Definition generate_types_for_packet (d : pack_decl) : list token :=
  let h := pd_header d in
  let fixed_payload_len := match fixed (h_len h) with
                           | Some x => fill [("x", qnum "u16" x)]%string t_some
                           | None => fill [] t_none
                           end in
  let max_payload_len := match h_len h with Fixed x => x | Max x => x end in
  fill [("struct_comment", qstr (pd_comment d)); ("name", qident (pd_name d)); ("class", qnum "u8" (h_class h));
        ("id", qnum "u8" (h_id h)); ("fixed_payload_len", One fixed_payload_len);
        ("max_payload_len", qnum "u16" max_payload_len)]%string t_types.

(** ** [generate_send_code_for_packet]: output.rs 302-496 *)

(** 317-320 *)
Definition t_builder_field := Eval vm_compute in template "
            #[doc = #field_comment]
            pub #name: #ty".
(** 326-330 *)
Definition t_extend_items := Eval vm_compute in template "
                    for f in self.#name {
                      len_bytes += f.extend_to(out);
                    }".
(** 344-346 *)
Definition t_pack_into := Eval vm_compute in template "let bytes = #into_fn(self.#name).to_le_bytes()".
(** 348-350 *)
Definition t_pack_le := Eval vm_compute in template "let bytes = self.#name.to_le_bytes()".
(** 352-354 *)
Definition t_pack_array := Eval vm_compute in template "let bytes: &[u8] = &self.#name;".
(** 358-361 *)
Definition t_write := Eval vm_compute in template "
            out.write(&bytes)?;
            checksum_calc.update(&bytes)".
(** 364-371, without the comments *)
Definition t_extend := Eval vm_compute in template "
            len_bytes += bytes.len();
            for b in bytes.iter() {
                out.extend(core::iter::once(*b));
            }".
(** 375-377 *)
Definition t_copy := Eval vm_compute in template "ret[#byte_off] = bytes[#i]".

(** 343-355 *)
Definition pack_code (f : field_decl) : list token :=
  let name := intermediate_field_name f in
  match fd_map f with
  | Some m => fill [("into_fn", One (md_into m)); ("name", qident name)]%string t_pack_into
  | None => if negb (is_field_raw_ty_byte_array f) then fill [("name", qident name)]%string t_pack_le
            else fill [("name", qident name)]%string t_pack_array
  end.

(** 373-378: the loop over [i], from [i0] *)
Fixpoint copy_codes (off i0 : N) (n : nat) : list (list token) :=
  match n with
  | O => []
  | S n' => fill [("byte_off", qusize (off + i0)); ("i", qusize i0)]%string t_copy :: copy_codes off (i0 + 1) n'
  end.

(** The vectors of 308-311, with [builder_needs_lifetime] *)
Record send_parts := mk_sp {
  sp_fields : list (list token);
  sp_pack : list (list token);
  sp_write : list (list token);
  sp_extend : list (list token);
  sp_lifetime : bool;
}.

(** 313-381: the loop *)
Fixpoint send_fields (off : N) (fs : list field_decl) : mres send_parts :=
  match fs with
  | [] => Good (mk_sp [] [] [] [] false)
  | f :: fs' =>
      let name := intermediate_field_name f in
      let fld := fill [("field_comment", qstr (fd_comment f)); ("name", qident name);
                       ("ty", One (intermediate_type f))]%string t_builder_field in
      match size_bytes (fd_raw f) with
      | None =>
          match fs' with
          | [] => Good (mk_sp [fld] [] [] [fill [("name", qident name)]%string t_extend_items] true)
          | _ => Crash                                                               (* 334-338: assert_eq! *)
          end
      | Some size =>
          let p := pack_code f in
          do r <- send_fields (off + size) fs';
          Good (mk_sp (fld :: sp_fields r)
                      (p :: copy_codes off 0 (N.to_nat size) ++ sp_pack r)
                      (p :: fill [] t_write :: sp_write r)
                      (p :: fill [] t_extend :: sp_extend r)
                      (sp_lifetime r))
      end
  end.

(** 388 *)
Definition t_default := Eval vm_compute in template "#[derive(Default)]".
(** 395 *)
Definition t_lifetime := Eval vm_compute in template "<'a>".
(** 400-407 *)
Definition t_builder := Eval vm_compute in template "
        #[doc = #struct_comment]
        #[doc = ""Struct that is used to construct packets, see the crate-level documentation for more information""]
        #builder_attr
        pub struct #payload_struct #payload_struct_lifetime {
            #(#fields),*
        }".
(** 412-454 *)
Definition t_send_fixed := Eval vm_compute in template "
            impl #payload_struct_lifetime #payload_struct #payload_struct_lifetime {
                pub const PACKET_LEN: usize = #packet_size;

                #[inline]
                pub fn into_packet_bytes(self) -> [u8; Self::PACKET_LEN] {
                    let mut ret = [0u8; Self::PACKET_LEN];
                    ret[0] = SYNC_CHAR_1;
                    ret[1] = SYNC_CHAR_2;
                    ret[2] = #main_name::CLASS;
                    ret[3] = #main_name::ID;
                    let pack_len_bytes = #packet_payload_size_u16 .to_le_bytes();
                    ret[4] = pack_len_bytes[0];
                    ret[5] = pack_len_bytes[1];
                    #(#pack_fields);*;
                    let (ck_a, ck_b) = ubx_checksum(&ret[2..(Self::PACKET_LEN - 2)]);
                    ret[Self::PACKET_LEN - 2] = ck_a;
                    ret[Self::PACKET_LEN - 1] = ck_b;
                    ret
                }
            }
            impl From<#payload_struct> for [u8; #packet_size] {
                fn from(x: #payload_struct) -> Self {
                    x.into_packet_bytes()
                }
            }

            impl UbxPacketCreator for #payload_struct {
                #[inline]
                fn create_packet<T: MemWriter>(self, out: &mut T) -> Result<(), MemWriterError<T::Error>> {
                    out.reserve_allocate(#packet_size)?;
                    let len_bytes = #packet_payload_size_u16 .to_le_bytes();
                    let header = [SYNC_CHAR_1, SYNC_CHAR_2, #main_name::CLASS, #main_name::ID, len_bytes[0], len_bytes[1]];
                    out.write(&header)?;
                    let mut checksum_calc = UbxChecksumCalc::default();
                    checksum_calc.update(&header[2..]);
                    #(#write_fields);*;
                    let (ck_a, ck_b) = checksum_calc.result();
                    out.write(&[ck_a, ck_b])?;
                    Ok(())
                }
            }".
(** 456-492, without the comments *)
Definition t_send_dyn := Eval vm_compute in template "
          impl #payload_struct_lifetime #payload_struct #payload_struct_lifetime {
              #[cfg(feature = ""alloc"")]
              #[inline]
              pub fn into_packet_vec(self) -> Vec<u8> {
                let mut vec = Vec::new();
                self.extend_to(&mut vec);
                vec
              }

              #[inline]
              pub fn extend_to<T>(self, out: &mut T)
              where
                 T: core::iter::Extend<u8> +
                    core::ops::DerefMut<Target = [u8]>
              {
                  let mut len_bytes = 0;
                  let header = [SYNC_CHAR_1, SYNC_CHAR_2, #main_name::CLASS, #main_name::ID, 0, 0];
                  for b in header.iter() {
                      out.extend(core::iter::once(*b));
                  }
                  #(#extend_fields);*;

                  let len_bytes = len_bytes.to_le_bytes();
                  out[4] = len_bytes[0];
                  out[5] = len_bytes[1];

                  let (ck_a, ck_b) = ubx_checksum(&out[2..]);
                  out.extend(core::iter::once(ck_a));
                  out.extend(core::iter::once(ck_b));
              }
          }".

Definition generate_send_code_for_packet (d : pack_decl) : mres (list token) :=
  let main_name := pd_name d in
  let payload_struct := (pd_name d ++ "Builder")%string in
  do r <- send_fields 6 (pd_fields d);
  let builder_attr := if existsb (fun x => match x with DefaultForBuilder => true end) (h_flags (pd_header d))
                      then fill [] t_default else [] in
  let payload_struct_lifetime := if sp_lifetime r then fill [] t_lifetime else [] in
  let ret := fill [("struct_comment", qstr (pd_comment d)); ("builder_attr", One builder_attr);
                   ("payload_struct", qident payload_struct); ("payload_struct_lifetime", One payload_struct_lifetime);
                   ("fields", Many (sp_fields r))]%string t_builder in
  do size <- decl_size 0 (pd_fields d);
  match size with
  | Some packet_payload_size =>
      let packet_size := packet_payload_size + 8 in
      if packet_payload_size <=? 65535 then                                          (* 411: unwrap *)
        Good (ret ++ fill [("payload_struct_lifetime", One payload_struct_lifetime);
                           ("payload_struct", qident payload_struct); ("packet_size", qusize packet_size);
                           ("main_name", qident main_name); ("packet_payload_size_u16", qnum "u16" packet_payload_size);
                           ("pack_fields", Many (sp_pack r)); ("write_fields", Many (sp_write r))]%string t_send_fixed)
      else Crash
  | None =>
      Good (ret ++ fill [("payload_struct_lifetime", One payload_struct_lifetime); ("payload_struct", qident payload_struct);
                         ("main_name", qident main_name); ("extend_fields", Many (sp_extend r))]%string t_send_dyn)
  end.

(** ** [generate_code_to_extend_enum]: output.rs 498-609 *)

(** An attribute as it was written *)
Definition attr_tokens (a : attribute) : list token := [TPunct "#"; TGroup Bracket (path_tokens (a_path a) ++ a_tokens a)].

(** input.rs 126-129: the attributes which stay *)
Definition kept_attrs (attrs : list attribute) : list attribute :=
  filter (fun x => negb (is_ident (a_path x) "ubx") && negb (is_ident (a_path x) "ubx_extend")) attrs.

(** 524, 541 *)
Definition t_branch := Eval vm_compute in template "#val => #name :: #id".
(** 527-535 *)
Definition t_enum_from := Eval vm_compute in template "
                impl #name {
                    fn from(x: #repr_ty) -> Self {
                        match x {
                            #(#match_branches),*
                        }
                    }
                }".
(** 547 *)
Definition t_or := Eval vm_compute in template "| #val".
(** 549 *)
Definition t_val := Eval vm_compute in template "#val".
(** 553-568 *)
Definition t_enum_from_unchecked := Eval vm_compute in template "
                impl #name {
                    fn from_unchecked(x: #repr_ty) -> Self {
                        match x {
                            #(#match_branches),*,
                            _ => unreachable!(),
                        }
                    }
                    fn is_valid(x: #repr_ty) -> bool {
                        match x {
                            #(#values)* => true,
                            _ => false,
                        }
                    }
                }".
(** 575-581 *)
Definition t_enum_into := Eval vm_compute in template "
            impl #name {
                const fn into_raw(self) -> #repr_ty {
                    self as #repr_ty
                }
            }".
(** 586 *)
Definition t_enum_variant := Eval vm_compute in template "#id = #val".
(** 589-607 *)
Definition t_enum := Eval vm_compute in template "
        #(#attrs)*
        pub enum #name {
            #(#enum_variants),*
        }

        #from_code
        #to_code

        #[cfg(feature = ""serde"")]
        impl serde::Serialize for #name {
            fn serialize<S>(&self, serializer: S) -> Result<S::Ok, S::Error>
            where
                S: serde::Serializer,
            {
                serializer.serialize_u8(*self as u8)
            }
        }".

(** 545-551: [values] *)
Definition value_codes (vs : list enum_val) : list (list token) :=
  match vs with
  | [] => []
  | v :: vs' => fill [("val", qnum "u8" (snd v))]%string t_val :: map (fun v => fill [("val", qnum "u8" (snd v))]%string t_or) vs'
  end.

(** (499-502 cannot fail: the type is always [u8].)  The list of variants is that of Enums.v (504-514). *)
Definition generate_code_to_extend_enum (attrs : list attribute) (d : enum_decl) : mres (list token) :=
  let name := e_name (ed_desc d) in
  let variants := enum_variants (ed_desc d) in
  let repr_ty := One [TIdent "u8"] in
  let match_branches := map (fun v => fill [("val", qnum "u8" (snd v)); ("name", qident name);
                                            ("id", qident (fst v))]%string t_branch) variants in
  do from_code <-
    match ed_from d with
    | Some From =>
        match e_rest (ed_desc d) with
        | Some RestError => Crash                                                    (* 518-521: assert_ne! *)
        | _ => Good (fill [("name", qident name); ("repr_ty", repr_ty);
                           ("match_branches", Many match_branches)]%string t_enum_from)
        end
    | Some FromUnchecked =>
        match e_rest (ed_desc d) with
        | Some RestReserved => Crash                                                 (* 538: assert_ne! *)
        | _ => Good (fill [("name", qident name); ("repr_ty", repr_ty); ("match_branches", Many match_branches);
                           ("values", Many (value_codes variants))]%string t_enum_from_unchecked)
        end
    | None => Good []
    end;
  let to_code := if ed_into_raw d then fill [("name", qident name); ("repr_ty", repr_ty)]%string t_enum_into else [] in
  Good (fill [("attrs", Many (map attr_tokens (kept_attrs attrs))); ("name", qident name);
              ("enum_variants", Many (map (fun v => fill [("id", qident (fst v));
                                                          ("val", qnum "u8" (snd v))]%string t_enum_variant) variants));
              ("from_code", One from_code); ("to_code", One to_code)]%string t_enum).

(** ** [generate_code_to_extend_bitflags]: output.rs 611-713 *)

(** The parts of the declaration which only the generated text needs: input.rs 161-165 and 629-663 *)
Record flags_text := mk_ft {
  ft_attrs : list attribute;                    (* of the struct *)
  ft_vis : list token;
  ft_repr : string;
  ft_const_attrs : list (list attribute);       (* of the constants, in order *)
}.

Definition vis_tokens (ts : list token) : list token :=
  match ts with
  | TIdent "pub" :: TGroup Paren b :: _ => [TIdent "pub"; TGroup Paren b]
  | TIdent "pub" :: _ => [TIdent "pub"]
  | _ => []
  end.
Definition flags_text_of (body : list token) : flags_text :=
  let (attrs, r) := outer_attrs body in
  match skip_vis r with
  | [_; TIdent _; _; TIdent ty; TGroup Brace items] =>
      mk_ft attrs (vis_tokens r) ty (map (fun seg => fst (outer_attrs seg)) (split_semis items))
  | _ => mk_ft attrs (vis_tokens r) "" []
  end.

(** 633-636 *)
Definition t_const := Eval vm_compute in template "
                    #(#attrs)*
                    const #name  = ((1 as #repr_ty) << #bit)".
(** 638-641 *)
Definition t_const0 := Eval vm_compute in template "
                    #(#attrs)*
                    const #name  = (1 as #repr_ty)".
(** 646 *)
Definition t_reserved := Eval vm_compute in template "const #name = ((1 as #repr_ty) << #bit)".
(** 648 *)
Definition t_reserved0 := Eval vm_compute in template "const #name = (1 as #repr_ty)".
(** 668-674 *)
Definition t_flags_from := Eval vm_compute in template "
            impl #name {
                const fn from(x: #repr_ty) -> Self {
                    Self::from_bits_truncate(x)
                }
            }".
(** 680-686 *)
Definition t_flags_into := Eval vm_compute in template "
            impl #name {
                const fn into_raw(self) -> #repr_ty {
                    self.bits()
                }
            }".
(** 690-700 *)
Definition t_flags_serde := Eval vm_compute in template "
        #[cfg(feature = ""serde"")]
        impl serde::Serialize for #name {
            fn serialize<S>(&self, serializer: S) -> Result<S::Ok, S::Error>
            where
                S: serde::Serializer,
            {
                serializer.#serialize_fn(self.bits())
            }
        }".
(** 702-712 *)
Definition t_flags := Eval vm_compute in template "
        bitflags! {
            #(#attrs)*
            #vis struct #name : #repr_ty {
                #(#items);*;
            }
        }
        #from
        #into
        #serde".

(** 626-651: the item of one bit: [consts.iter().find(|x| x.value == flag_bit)] *)
Definition flag_item (repr_ty : qval) (consts : list ((string * N) * list attribute)) (bit : N) : list token :=
  match find (fun c => snd (fst c) =? N.shiftl 1 bit) consts with
  | Some ((name, _), attrs) =>
      let e := [("attrs", Many (map attr_tokens attrs)); ("name", qident name); ("repr_ty", repr_ty);
                ("bit", qnum "u32" bit)]%string in
      if negb (bit =? 0) then fill e t_const else fill e t_const0
  | None =>
      let e := [("name", qident ("RESERVED" ++ dec bit)); ("repr_ty", repr_ty); ("bit", qnum "u32" bit)]%string in
      if negb (bit =? 0) then fill e t_reserved else fill e t_reserved0
  end.

Definition generate_code_to_extend_bitflags (x : flags_text) (d : flags_decl) : mres (list token) :=
  match fl_rest d with
  | Some RestError | None => Bad "Only reserved supported"                           (* 612-620 *)
  | Some RestReserved =>
      let name := b_name (fl_desc d) in
      let repr_ty := One [TIdent (ft_repr x)] in
      let items := map (flag_item repr_ty (combine (b_consts (fl_desc d)) (ft_const_attrs x)))
                       (map N.of_nat (seq 0 (N.to_nat (b_nbits (fl_desc d))))) in
      if negb (flags_accepted (fl_desc d)) then Bad "Strange flags, not power of 2?" (* 653-660 *)
      else
        do from <- match fl_from d with
                   | None => Good []
                   | Some From => Good (fill [("name", qident name); ("repr_ty", repr_ty)]%string t_flags_from)
                   | Some FromUnchecked => Crash                                     (* 675: unimplemented!() *)
                   end;
        let into := if fl_into_raw d then fill [("name", qident name); ("repr_ty", repr_ty)]%string t_flags_into else [] in
        let serde := fill [("name", qident name); ("serialize_fn", qident ("serialize_" ++ ft_repr x))]%string t_flags_serde in
        Good (fill [("attrs", Many (map attr_tokens (ft_attrs x))); ("vis", One (ft_vis x)); ("name", qident name);
                    ("repr_ty", repr_ty); ("items", Many items); ("from", One from); ("into", One into);
                    ("serde", One serde)]%string t_flags)
  end.

(** ** [generate_code_for_parse]: output.rs 715-824 *)

(** 725-727 *)
Definition t_union_variant := Eval vm_compute in template "#name(#ref_name <'a>)".
(** 729-733 *)
Definition t_match := Eval vm_compute in template "
            (#name::CLASS, #name::ID) if <#ref_name>::validate(payload).is_ok()  => {
                Ok(#union_enum_name::#name(#ref_name(payload)))
            }".
(** 735-737 *)
Definition t_class_id := Eval vm_compute in template "#union_enum_name::#name(_) => (#name::CLASS, #name::ID)".
(** 739-746 *)
Definition t_serializer := Eval vm_compute in template "
            #union_enum_name::#name(ref msg) => crate::ubx_packets::PacketSerializer {
                class: #name::CLASS,
                msg_id: #name::ID,
                msg,
            }
            .serialize(serializer)".
(** 754 *)
Definition t_zero := Eval vm_compute in template "0u16".
(** 755 *)
Definition t_max := Eval vm_compute in template "max_u16(#name::MAX_PAYLOAD_LEN, #prev)".
(** 758-823 *)
Definition t_parse := Eval vm_compute in template "
        #[doc = ""All possible packets enum""]
        #[derive(Debug)]
        pub enum #union_enum_name<'a> {
            #(#pack_enum_variants),*,
            Unknown(#unknown_var<'a>)
        }

        impl<'a> #union_enum_name<'a> {
            pub fn class_and_msg_id(&self) -> (u8, u8) {
                match *self {
                    #(#class_id_matches),*,
                    #union_enum_name::Unknown(ref pack) => (pack.class, pack.msg_id),
                }
            }
        }

        pub(crate) fn match_packet(class: u8, msg_id: u8, payload: &[u8]) -> Result<#union_enum_name, ParserError> {
            match (class, msg_id) {
                #(#matches)*
                _ => Ok(#union_enum_name::Unknown(#unknown_var {
                    payload,
                    class,
                    msg_id
                })),
            }
        }

        const fn max_u16(a: u16, b: u16) -> u16 {
            [a, b][(a < b) as usize]
        }
        pub(crate) const MAX_PAYLOAD_LEN: u16 = #max_payload_len_calc;
        #[cfg(feature = ""serde"")]
        pub struct PacketSerializer<'a, T> {
            class: u8,
            msg_id: u8,
            msg: &'a T,
        }

        #[cfg(feature = ""serde"")]
        impl<'a, T: SerializeUbxPacketFields> serde::Serialize for PacketSerializer<'a, T> {
            fn serialize<S>(&self, serializer: S) -> Result<S::Ok, S::Error>
            where
                S: serde::Serializer,
            {
                let mut state = serializer.serialize_map(None)?;
                state.serialize_entry(""class"", &self.class)?;
                state.serialize_entry(""msg_id"", &self.msg_id)?;
                self.msg.serialize_fields(&mut state)?;
                state.end()
            }
        }

        #[cfg(feature = ""serde"")]
        impl serde::Serialize for #union_enum_name<'_> {
            fn serialize<S>(&self, serializer: S) -> Result<S::Ok, S::Error>
            where
                S: serde::Serializer,
            {
                match *self {
                    #(#serializers),*,
                    #union_enum_name::Unknown(ref pack) => pack.serialize(serializer),
                }
            }
        }".

(** The variables of one packet *)
Definition packet_env (union_enum_name name : string) : qenv :=
  [("name", qident name); ("ref_name", qident (name ++ "Ref")); ("union_enum_name", qident union_enum_name)]%string.

Definition generate_code_for_parse (d : recv_decl) : list token :=
  let each t := Many (map (fun name => fill (packet_env (rd_name d) name) t) (rd_packets d)) in
  let max_payload_len_calc :=
    fold_left (fun prev name => fill [("name", qident name); ("prev", One prev)]%string t_max) (rd_packets d) (fill [] t_zero) in
  fill [("union_enum_name", qident (rd_name d)); ("unknown_var", qident (rd_unknown d));
        ("pack_enum_variants", each t_union_variant); ("matches", each t_match); ("class_id_matches", each t_class_id);
        ("serializers", each t_serializer); ("max_payload_len_calc", One max_payload_len_calc)]%string t_parse.

(** ** The macros: lib.rs 112-183 *)

Definition code_for_recv_packet (d : pack_decl) : mres (list token) :=
  do recv_code <- generate_recv_code_for_packet d;
  Good (generate_types_for_packet d ++ recv_code).
Definition code_for_send_packet (d : pack_decl) : mres (list token) :=
  do send_code <- generate_send_code_for_packet d;
  Good (generate_types_for_packet d ++ send_code).
Definition code_for_recv_send_packet (d : pack_decl) : mres (list token) :=
  do send_code <- generate_send_code_for_packet d;
  do recv_code <- generate_recv_code_for_packet d;
  Good (generate_types_for_packet d ++ send_code ++ recv_code).

Definition code_for_packet (k : kind) : pack_decl -> mres (list token) :=
  match k with
  | Recv => code_for_recv_packet
  | Send => code_for_send_packet
  | RecvSend => code_for_recv_send_packet
  end.

(** The text which replaces an item with a macro attribute (lib.rs 17-110) *)
Definition expansion (i : syn_item) : mres (list token) :=
  match i with
  | IStruct attrs name fs =>
      match first_macro attrs with
      | Some (MPacket k) => do f <- fs; do d <- parse_packet_description name attrs f; code_for_packet k d
      | Some MExtend => Bad "This attribute can only be used for enum"
      | Some MBitflags => Bad "expected macro"
      | None => Good []
      end
  | IEnum attrs name vs =>
      match first_macro attrs with
      | Some (MPacket _) => Bad "This attribute can only be used for struct"
      | Some MExtend => do v <- vs; do d <- parse_ubx_enum_type name attrs v; generate_code_to_extend_enum attrs d
      | Some MBitflags => Bad "expected macro"
      | None => Good []
      end
  | IMacro attrs path body =>
      match first_macro attrs with
      | Some MBitflags =>
          if is_ident path "bitflags"
          then do d <- parse_bitflags attrs body; generate_code_to_extend_bitflags (flags_text_of body) d
          else Bad "Expect bitflags invocation here"
      | Some _ => Bad "expected one of: `struct`, `enum`, `union`"
      | None => if is_ident path "define_recv_packets"
                then do d <- parse_idents_list body; Good (generate_code_for_parse d) else Good []
      end
  | IOther => Good []
  end.
