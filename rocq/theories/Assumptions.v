(** Generated by tools/gen.py: the assumptions of every property theorem, per file
    (a tuple is closed exactly when each of its components is). *)

From Verif Require Import PropAccept PropAddress PropAnswer PropBase PropBody PropBook PropBoth PropCaps PropCase PropConc PropConn PropContent PropDecode PropDelta PropDir PropDuring PropDuringSsh PropFail PropFetch PropFiles PropFit PropForm PropGateway PropGlance PropGreet PropHttp PropIdx PropLfsApart PropLfsConc PropLockList PropLocks PropLoose PropNegotiate PropObject PropOnce PropOrder PropOutage PropPack PropPath PropPick PropPkt PropProto PropRead PropRetry PropRows PropSerde PropServer PropService PropShelf PropSsh PropStorage PropTail PropThin PropTogether PropTransfer PropUtils PropWire.

Definition all_PropAccept :=
  (C139_sound,
   C139_wrong_size,
   C139_delta_size_refuted,
   C139_inside_refuted).
Print Assumptions all_PropAccept.

Definition all_PropAddress :=
  (C141_every,
   C141_never,
   C141_git,
   C141_git_different,
   C141_plain,
   C141_neighbours,
   C141_space,
   C141_refuted).
Print Assumptions all_PropAddress.

Definition all_PropAnswer :=
  (C122_list,
   C122_lock,
   C122_unlock,
   C122_verify,
   C122_not_json,
   C122_download,
   C122_discovery,
   C122_unknown,
   C122_refuted,
   C123_literal,
   C123_refuted).
Print Assumptions all_PropAnswer.

Definition all_PropBase :=
  (C28_tree_roundtrip,
   C28_tree_format,
   C28_files,
   C29_tree_decoding,
   C29_tree_fidelity,
   C29_otherwise_abort,
   C29_unique,
   C30_sign_roundtrip,
   C30_sign_format,
   C30_sign_parse,
   C30_parsed_fields_clean,
   C31_commit_roundtrip,
   C31_commit_format,
   C32_parents_decoded,
   C32_merge_refuted,
   C33_commit_fidelity,
   C33_merge_not_preserved,
   C33_merge_refuted,
   C34_tag_format,
   C34_tag_decoding,
   C34_tag_roundtrip,
   C34_no_newline_aborts,
   C34_tag_fidelity,
   C34_unknown_type_aborts,
   C77_tree_names,
   C77_tree_total,
   C77_commit_message,
   C77_latin1_message_refuted,
   C77_latin1_filename_refuted,
   C77_tag_without_tagger_refuted).
Print Assumptions all_PropBase.

Definition all_PropBody :=
  (C142_pieces,
   C142_broken,
   C142_ignored).
Print Assumptions all_PropBody.

Definition all_PropBook :=
  (C124_book,
   C124_held).
Print Assumptions all_PropBook.

Definition all_PropBoth :=
  (C150_apart,
   C150_refuted).
Print Assumptions all_PropBoth.

Definition all_PropCaps :=
  (C143_fetch,
   C143_effect,
   C143_push,
   C143_fetch_ssh,
   C143_push_ssh,
   C143_refuted).
Print Assumptions all_PropCaps.

Definition all_PropCase :=
  (C133_fetch,
   C133_greeting,
   C133_push,
   C133_locks,
   C133_refuted).
Print Assumptions all_PropCase.

Definition all_PropConc :=
  (C87_commits_whole,
   C87_always_complete,
   C88_clone_snapshot,
   C89_programs,
   C89_alone,
   C89_sequence,
   C89_append_only,
   C89_one_repository,
   C89_isolation,
   C89_tables,
   C90_old_id_seen,
   C90_lost_update_refuted,
   C91_wrong_pack_refuted,
   C91_aborted_late_refuted).
Print Assumptions all_PropConc.

Definition all_PropConn :=
  (C109_blind,
   C109_turns,
   C109_taken_over,
   C109_between,
   C109_no_command,
   C109_refuted,
   C110_not_accepted,
   C110_anyone,
   C110_refuted,
   C111_stable,
   C111_kept,
   C111_starts,
   C111_cut_short,
   C111_cut_later,
   C111_refuted).
Print Assumptions all_PropConn.

Definition all_PropContent :=
  (C67_below,
   C67_file,
   C67_distinct,
   C67_no_nesting,
   C67_short_refuted,
   C66_downloads,
   C66_refuted,
   C66_short_write_refuted,
   C66_accepted,
   C68_entries,
   C68_links,
   C68_large,
   C68_refuted,
   C68_links_refuted,
   C68_key_insert,
   C79_inside,
   C79_refuted).
Print Assumptions all_PropContent.

Definition all_PropDecode :=
  (C25_objects_dropped,
   C25_objects_returned_refuted,
   C35_partition,
   C35_no_deadlock,
   C35_terminates,
   C35_crash_iff_unparsable,
   C35_result_iff,
   C35_sequential,
   C36_check_iff,
   C36_sorted,
   C36_names,
   C36_named,
   C36_check_after_decoding,
   C36_listing_aborts,
   C36_write_aborts,
   C36_complete_pack_refuted).
Print Assumptions all_PropDecode.

Definition all_PropDelta :=
  (C11_apply_iff,
   C11_apply_complete,
   C11_format_deterministic,
   C11_apply_overflow_refuted,
   C12_outcomes,
   C12_declared_length,
   C12_wrong_base,
   C12_wrong_length,
   C12_reserved_opcode,
   C12_copy_outside,
   C12_cut_aborts,
   C13_delta_reproduces,
   C14_big_copy_rejected,
   C14_no_big_copy,
   C14_big_copy_refuted,
   C14_far_copy_refuted).
Print Assumptions all_PropDelta.

Definition all_PropDir :=
  (C136_loose_name,
   C136_merged_name,
   C136_strays_left_out,
   C136_short_name_aborts,
   C136_again).
Print Assumptions all_PropDir.

Definition all_PropDuring :=
  (C151_fetch_during).
Print Assumptions all_PropDuring.

Definition all_PropDuringSsh :=
  (C152_ssh_clone,
   C152_ssh_fetch).
Print Assumptions all_PropDuringSsh.

Definition all_PropFail :=
  (C134_honest,
   C134_lock,
   C134_unlock,
   C134_refuted).
Print Assumptions all_PropFail.

Definition all_PropFetch :=
  (C112_ignored,
   C112_ignored_ssh,
   C112_no_info,
   C112_waits,
   C112_whole_history,
   C112_refuted).
Print Assumptions all_PropFetch.

Definition all_PropFiles :=
  (C140_answered,
   C140_any,
   C140_count,
   C140_sequence,
   C140_refused,
   C140_completed,
   C140_refuted,
   C140_cut_refuted).
Print Assumptions all_PropFiles.

Definition all_PropFit :=
  (C137_long_name,
   C137_big_commit,
   C137_big_node,
   C137_created_refuted,
   C137_commit_stored_refuted).
Print Assumptions all_PropFit.

Definition all_PropForm :=
  (C149_decode,
   C149_push,
   C149_ssh,
   C149_encoders).
Print Assumptions all_PropForm.

Definition all_PropGateway :=
  (C69_path,
   C69_distinct,
   C69_refuted,
   C69_suffix_refuted,
   C71_get,
   C71_put,
   C71_post,
   C71_other,
   C70_repositories,
   C70_short_form,
   C70_refuted,
   C70_short_form_refuted).
Print Assumptions all_PropGateway.

Definition all_PropGlance :=
  (C145_alike,
   C145_refuted).
Print Assumptions all_PropGlance.

Definition all_PropGreet :=
  (C153_http,
   C153_ssh,
   C153_refuted).
Print Assumptions all_PropGreet.

Definition all_PropHttp :=
  (C118_discovery,
   C118_service,
   C118_lfs,
   C118_refused,
   C118_any,
   C119_values,
   C119_any,
   C119_any_twice,
   C119_every,
   C119_spelling,
   C119_twice,
   C119_text,
   C119_ignored,
   C120_lfs,
   C120_git,
   C120_kept,
   C121_repeated,
   C120_refuted).
Print Assumptions all_PropHttp.

Definition all_PropIdx :=
  (C26_index_format,
   C26_index_of_any_pack,
   C26_index_decoding,
   C26_decoding_again,
   C26_index_roundtrip,
   C27_decoded_offsets_small,
   C27_offsets_truncated,
   C27_large_offset_refuted,
   C75_wrong_magic_rejected,
   C75_version_and_checksum_ignored,
   C75_tampering_accepted_refuted,
   C76_crc_of_encoded_entries,
   C76_crc_of_delta_refuted).
Print Assumptions all_PropIdx.

Definition all_PropLfsApart :=
  (C127_locks,
   C127_objects,
   C128_apart,
   C128_known,
   C128_refuted).
Print Assumptions all_PropLfsApart.

Definition all_PropLfsConc :=
  (C125_stays,
   C126_settles,
   C126_downloads,
   C125_accepted,
   C125_again,
   C125_refuted,
   C126_refuted,
   C126_programs).
Print Assumptions all_PropLfsConc.

Definition all_PropLockList :=
  (C63_listing,
   C63_default,
   C63_negative,
   C63_refuted,
   C64_no_path,
   C64_path,
   C64_refuted).
Print Assumptions all_PropLockList.

Definition all_PropLocks :=
  (C61_exclusive,
   C61_conflict,
   C61_granted,
   C61_empty_path,
   C65_removed,
   C65_unknown,
   C65_same_number_refuted,
   C62_steps,
   C62_different_refs,
   C62_refuted,
   C62_lost_refuted).
Print Assumptions all_PropLocks.

Definition all_PropLoose :=
  (C114_returned,
   C114_commit,
   C114_other,
   C114_length,
   C114_colour,
   C114_outcomes,
   C114_decimal,
   C114_refuted,
   C115_blob,
   C115_tree,
   C115_commit,
   C115_aborts,
   C115_kind_refuted,
   C116_returned,
   C116_lacking,
   C116_common,
   C116_refuted,
   C117_names,
   C117_names_panic,
   C117_git_names,
   C117_objects,
   C117_order,
   C117_no_times,
   C117_short_name_refuted,
   C117_times_refuted).
Print Assumptions all_PropLoose.

Definition all_PropNegotiate :=
  (C45_known,
   C45_http_fetch,
   C45_ssh_fetch,
   C54_other_modes,
   C45_other_repository_refuted).
Print Assumptions all_PropNegotiate.

Definition all_PropObject :=
  (C06_hex_parse,
   C06_hex_reject,
   C06_hex_print,
   C06_hex_lowercase,
   C06_hex_length,
   C07_object_id,
   C07_delta_types_have_no_id,
   C07_preimage_injective,
   C07_preimage_determined,
   C07_id_length,
   C08_loose_path_parts,
   C08_loose_path_injective,
   C09_loose_roundtrip,
   C09_loose_format,
   C09_new_objects_wf,
   C10_declared_length_ignored,
   C10_declared_length_refuted).
Print Assumptions all_PropObject.

Definition all_PropOnce :=
  (C144_once,
   C144_run,
   C144_taken,
   C144_shown,
   C144_refuted).
Print Assumptions all_PropOnce.

Definition all_PropOrder :=
  (C108_orders,
   C108_equalities,
   C108_agree_size,
   C108_decoded_equal,
   C108_agree_refuted,
   C108_identity_refuted).
Print Assumptions all_PropOrder.

Definition all_PropOutage :=
  (C138_fetch,
   C138_fetch_ssh,
   C138_discovery,
   C138_push,
   C138_branch_outage,
   C138_below_refuted,
   C138_created_refuted).
Print Assumptions all_PropOutage.

Definition all_PropPack :=
  (C15_header_format,
   C15_header_roundtrip,
   C15_header_decoding,
   C15_other_header_rejected,
   C15_empty_aborts,
   C15_truncated_rejected,
   C73_wellformed_pack_decodes,
   C16_encode_format,
   C16_pack_roundtrip,
   C17_encode_trailer,
   C17_encode_delta_trailer,
   C17_any_trailer_accepted,
   C17_wrong_checksum_refuted,
   C18_delta_format,
   C18_delta_pack_roundtrip,
   C18_release_same,
   C19_small_packs,
   C19_debug_aborts_refuted,
   C19_release_corrupts_refuted,
   C20_terminates,
   C20_self_reference_diverges,
   C20_diverges_refuted,
   C21_decode_addressed,
   C21_step_addressed,
   C22_undefined_type_aborts,
   C22_error_reported_refuted,
   C23_merge,
   C23_pack_loose,
   C23_no_loose_aborts,
   C24_objects_complete,
   C24_errors_abort,
   C24_foreign_file_aborts,
   C24_count_is_zero,
   C24_count_refuted,
   C74_missing_base_aborts,
   C74_forward_reference_refuted).
Print Assumptions all_PropPack.

Definition all_PropPath :=
  (C106_outside,
   C106_boundary,
   C106_inside,
   C107_single,
   C107_nearest_refuted).
Print Assumptions all_PropPath.

Definition all_PropPick :=
  (C148_choice,
   C148_one,
   C148_base).
Print Assumptions all_PropPick.

Definition all_PropPkt :=
  (C37_pkt_format,
   C37_pkt_roundtrip,
   C37_reads_every_line,
   C37_too_long,
   C38_reader_iff,
   C38_reader_total,
   C38_reader_slices,
   C39_side_band_delivers,
   C39_side_band_unambiguous,
   C39_chunk_sizes,
   C40_flush_appended,
   C40_exact_refuted,
   C43_fetch_request,
   C44_no_done_diverges,
   C44_diverges_only_without_done,
   C44_terminates_refuted,
   C45_ack_lines,
   C45_no_haves,
   C45_foreign_id_refuted,
   C49_plain_command,
   C49_first_command,
   C49_name_refuted,
   C50_classification,
   C50_report,
   C78_small_chunks,
   C78_big_chunk,
   C78_limit_refuted).
Print Assumptions all_PropPkt.

Definition all_PropProto :=
  (C41_repository,
   C41_no_head,
   C41_below,
   C42_distinct_ids,
   C42_one_per_commit,
   C42_missing_refuted,
   C46_create,
   C46_update,
   C47_nothing_done,
   C47_request_echoed,
   C47_two_references_refuted,
   C48_nothing_deleted,
   C48_delete_with_pack,
   C48_delete_refuted,
   C57_child_commit,
   C58_never_refreshed,
   C58_other_tree_refuted,
   C58_file_as_tree_refuted,
   C59_crash,
   C59_unknown_commit_refuted,
   C60_errors_ignored,
   C60_reported_ok_refuted,
   C72_different_seconds,
   C72_same_second_refuted,
   C72_same_second_panic_refuted,
   C72_leftover).
Print Assumptions all_PropProto.

Definition all_PropRead :=
  (C146_index_ends,
   C146_index_partly,
   C146_index_longer,
   C146_index_whole,
   C146_pack_same,
   C146_pack_errors,
   C146_pack_partly,
   C146_no_file).
Print Assumptions all_PropRead.

Definition all_PropRetry :=
  (C129_sent,
   C129_create,
   C129_update,
   C129_seen,
   C129_refuted).
Print Assumptions all_PropRetry.

Definition all_PropRows :=
  (C99_push,
   C100_names,
   C100_refuted).
Print Assumptions all_PropRows.

Definition all_PropSerde :=
  (C94_lock,
   C94_unlock,
   C94_verify,
   C94_batch,
   C94_exact,
   C94_json_only,
   C94_one_meaning,
   C95_ref_needed,
   C95_transfers_needed,
   C95_refuted,
   C96_replies,
   C96_requests,
   C97_never,
   C97_refuted,
   C98_round_trip,
   C98_environment,
   C98_other_writers).
Print Assumptions all_PropSerde.

Definition all_PropServer :=
  (C113_push,
   C113_stale,
   C113_references,
   C113_clone,
   C113_ssh_clone).
Print Assumptions all_PropServer.

Definition all_PropService :=
  (C80_http,
   C80_request,
   C80_ssh,
   C81_append_only,
   C82_one_repository,
   C82_at_most_one,
   C82_no_repository,
   C82_isolation,
   C83_clone_unaffected,
   C84_aborted_push,
   C84_aborted_packet,
   C84_working,
   C84_references_last,
   C85_push_then_clone,
   C86_tables,
   C86_from_empty,
   C84_refuted).
Print Assumptions all_PropService.

Definition all_PropShelf :=
  (C131_shelf).
Print Assumptions all_PropShelf.

Definition all_PropSsh :=
  (C101_new,
   C101_repository,
   C102_create,
   C102_update,
   C103_push_then_clone,
   C104_in_order,
   C104_joined,
   C104_head_cut,
   C104_split,
   C104_no_done,
   C105_prefix,
   C105_http,
   C105_ssh,
   C104_refuted).
Print Assumptions all_PropSsh.

Definition all_PropStorage :=
  (C51_push_then_clone,
   C51_first_push_then_clone,
   C52_no_tag_returned,
   C52_tag_lost_refuted,
   C53_missing_object_aborts,
   C53_incremental_push_refuted,
   C54_incremental_pack,
   C54_wanted_commit_refuted,
   C55_one_reference,
   C55_only_candidate,
   C55_other_moved_refuted,
   C56_all_rows_in_order,
   C56_saved,
   C56_limit_refuted,
   C56_large_first_row).
Print Assumptions all_PropStorage.

Definition all_PropTail :=
  (C147_decode,
   C147_file,
   C147_one_end,
   C147_push,
   C147_answered,
   C147_ssh).
Print Assumptions all_PropTail.

Definition all_PropThin :=
  (C135_bases,
   C135_pack,
   C135_decoded,
   C135_create,
   C135_update,
   C135_other_base,
   C135_refuted).
Print Assumptions all_PropThin.

Definition all_PropTogether :=
  (C92_create,
   C92_create_exact,
   C92_update_exact,
   C93_ends,
   C93_all_end,
   C93_push_answered).
Print Assumptions all_PropTogether.

Definition all_PropTransfer :=
  (C132_answered,
   C122_upload,
   C122_batch,
   C132_transfer).
Print Assumptions all_PropTransfer.

Definition all_PropUtils :=
  (C01_size_roundtrip,
   C01_size_format,
   C01_size_decoding,
   C02_header_roundtrip,
   C02_header_format,
   C02_header_decoding,
   C02_type_numbers,
   C02_large_sizes,
   C03_offset_roundtrip_iff,
   C03_offset_format,
   C03_offset_small,
   C03_offset_debug_panics,
   C03_offset_release_wrong,
   C03_offset_roundtrip_refuted,
   C04_offset_decoding,
   C04_offset_total,
   C05_u32_roundtrip,
   C05_u32_format,
   C05_u32_decoding,
   C05_u32_short).
Print Assumptions all_PropUtils.

Definition all_PropWire :=
  (C130_wire,
   C130_held).
Print Assumptions all_PropWire.
