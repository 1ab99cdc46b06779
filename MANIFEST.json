{
 "claims": [
  {
   "property": "C01",
   "status": "proved",
   "theorems": [
    "C01_rb_insert",
    "C01_insert_sequence",
    "C01_index_sequence"
   ],
   "note": "pointer-heap model; single insertion, sequences from the empty index, and mixed insertion/removal sequences refine the sorted-sequence specification"
  },
  {
   "property": "C02",
   "status": "proved",
   "theorems": [
    "C02_rb_search"
   ],
   "note": ""
  },
  {
   "property": "C03",
   "status": "proved",
   "theorems": [
    "C03_rb_erase"
   ],
   "note": ""
  },
  {
   "property": "C04",
   "status": "proved",
   "theorems": [
    "C04_rb_walk",
    "C04_rb_walk_back",
    "C04_rb_walk_postorder"
   ],
   "note": "forward, backward and postorder walks"
  },
  {
   "property": "C05",
   "status": "proved",
   "theorems": [
    "C05_rb_destroy"
   ],
   "note": ""
  },
  {
   "property": "C06",
   "status": "proved",
   "theorems": [
    "C06_init",
    "C06_traverse",
    "C06_append",
    "C06_prepend",
    "C06_remove",
    "C06_replace",
    "C06_move_within",
    "C06_move_across",
    "C06_rotate",
    "C06_cut",
    "C06_splice",
    "C06_splice_tail",
    "C06_predicates",
    "C06_free_all"
   ],
   "note": ""
  },
  {
   "property": "C07",
   "status": "proved",
   "theorems": [
    "C07_list_sort"
   ],
   "note": ""
  },
  {
   "property": "C08",
   "status": "proved",
   "theorems": [
    "C08_lookup_exact",
    "C08_lookup_exact_after_unlink"
   ],
   "note": "the text of /proc/PID/maps is modelled after parsing"
  },
  {
   "property": "C09",
   "status": "proved",
   "theorems": [
    "C09_hole_is_free"
   ],
   "note": ""
  },
  {
   "property": "C10",
   "status": "proved",
   "theorems": [
    "C10_perms_to_prot",
    "C10_prot_to_flags"
   ],
   "note": ""
  },
  {
   "property": "C11",
   "status": "proved",
   "theorems": [
    "C11_patch_names_recognised",
    "C11_others_not_patches"
   ],
   "note": ""
  },
  {
   "property": "C12",
   "status": "proved",
   "theorems": [
    "C12_lookup_by_name"
   ],
   "note": "names are C strings; both tables and duplicate chains are linked for every registration"
  },
  {
   "property": "C13",
   "status": "partial",
   "theorems": [
    "C13_address_exact_refuted",
    "C13_registered_found_refuted",
    "C13_address_exact_partial"
   ],
   "note": "refuted both ways: the 64-bit difference is truncated to int, so a foreign address can be found and a registered one missed; partial: exact when all addresses lie within 2 GiB"
  },
  {
   "property": "C14",
   "status": "proved",
   "theorems": [
    "C14_free_once"
   ],
   "note": "all histories, without any assumption on names and addresses (the address order may be inconsistent)"
  },
  {
   "property": "C15",
   "status": "proved",
   "theorems": [
    "C15_x86_reloc_value",
    "C15_x86_reloc_frame"
   ],
   "note": ""
  },
  {
   "property": "C16",
   "status": "proved",
   "theorems": [
    "C16_x86_accept_iff",
    "C16_x86_abs32_exact"
   ],
   "note": "acceptance is characterised exactly (iff) for all types, including 32/32S overflow"
  },
  {
   "property": "C17",
   "status": "partial",
   "theorems": [
    "C17_x86_pc32_truncates_refuted",
    "C17_x86_pc32_reaches_partial"
   ],
   "note": "refuted: PC32/PLT32 displacements are not range checked; the partial theorem shows the branch reaches the symbol when the displacement fits. Missing (false): rejection otherwise."
  },
  {
   "property": "C18",
   "status": "proved",
   "theorems": [
    "C18_x86_refuses_nonzero",
    "C18_x86_refuses_unknown",
    "C18_x86_not_twice"
   ],
   "note": ""
  },
  {
   "property": "C19",
   "status": "proved",
   "theorems": [
    "C19_call_jump_reach",
    "C19_jmpq_replace_reach",
    "C19_jmp8_reach"
   ],
   "note": ""
  },
  {
   "property": "C20",
   "status": "proved",
   "theorems": [
    "C20_x86_jump_entry"
   ],
   "note": ""
  },
  {
   "property": "C21",
   "status": "proved",
   "theorems": [
    "C21_a64_jump_entry"
   ],
   "note": ""
  },
  {
   "property": "C22",
   "status": "proved",
   "theorems": [
    "C22_a64_imm_round_trip",
    "C22_a64_decode",
    "C22_a64_fault"
   ],
   "note": ""
  },
  {
   "property": "C23",
   "status": "proved",
   "theorems": [
    "C23_a64_imm_overflow"
   ],
   "note": ""
  },
  {
   "property": "C24",
   "status": "proved",
   "theorems": [
    "C24_a64_movw_unsigned",
    "C24_a64_movw_signed",
    "C24_a64_movw_signed_value"
   ],
   "note": ""
  },
  {
   "property": "C25",
   "status": "proved",
   "theorems": [
    "C25_a64_data_overflow"
   ],
   "note": ""
  },
  {
   "property": "C26",
   "status": "partial",
   "theorems": [
    "C26_a64_overflow_rejected_refuted",
    "C26_a64_uninitialised_refuted",
    "C26_a64_overflow_rejected_partial",
    "C26_a64_no_spurious_rejection"
   ],
   "note": "refuted: the overflow flag is uninitialised and never set again after an unchecked entry; partial: entries not preceded by an unchecked one are rejected, and nothing is rejected without cause"
  },
  {
   "property": "C27",
   "status": "partial",
   "theorems": [
    "C27_a64_branch_reaches_refuted",
    "C27_a64_wrong_branch_refuted",
    "C27_a64_branch_reaches_partial"
   ],
   "note": "refuted: the pc parameter is 32 bits wide; partial: instruction addresses below 4 GiB"
  },
  {
   "property": "C28",
   "status": "proved",
   "theorems": [
    "C28_patch_unpatch",
    "C28_mapping_gone"
   ],
   "note": "Over all histories: patch, balanced further events, unpatch. Mapping removal is stated as the munmap system call executed in the target. Conditions on the kernel and the patch file are in step/good_file."
  },
  {
   "property": "C29",
   "status": "proved",
   "theorems": [
    "C29_lifo"
   ],
   "note": "All finite histories of sessions, with failed attempts and runs of the target in between, fewer than 2^32-1 events."
  },
  {
   "property": "C30",
   "status": "partial",
   "theorems": [
    "C30_touches_refuted",
    "C30_touches_partial",
    "C30_function_partial"
   ],
   "note": "Refuted: failing to put borrowed library code back goes unnoticed. Partial: everything else, for any file and any failing call."
  },
  {
   "property": "C31",
   "status": "partial",
   "theorems": [
    "C31_backup_refuted",
    "C31_backup_partial"
   ],
   "note": "Refuted: a jump write cut short fails the attempt and the only copy of the code is unmapped. Partial: no short writes."
  },
  {
   "property": "C32",
   "status": "proved",
   "theorems": [
    "C32_ordered",
    "C32_larger"
   ],
   "note": "Both over histories and for one session with arbitrary patches present."
  },
  {
   "property": "C33",
   "status": "partial",
   "theorems": [
    "C33_twice_refuted",
    "C33_twice_partial"
   ],
   "note": "Refuted: unreadable mapping makes the patch unnoticed. Partial: readable mappings."
  },
  {
   "property": "C34",
   "status": "partial",
   "theorems": [
    "C34_removal_never",
    "C34_removal_refuted",
    "C34_twice_refuted"
   ],
   "note": "Refuted: removal in the same session always gives -ENOENT, and the same file is accepted twice."
  },
  {
   "property": "C35",
   "status": "partial",
   "theorems": [
    "C35_malformed_accepted_refuted",
    "C35_loader_partial",
    "C35_missing_file"
   ],
   "note": "Refuted: the error of the section table check is dropped and 0 is returned with everything released. Partial: exact list of outcomes for files below 2 GiB."
  },
  {
   "property": "C36",
   "status": "partial",
   "theorems": [
    "C36_sections_inside_refuted",
    "C36_sections_partial"
   ],
   "note": "Refuted: offset + size wraps at 2^64. Partial: sections with offset + size < 2^64; frame and addresses in full."
  },
  {
   "property": "C37",
   "status": "proved",
   "theorems": [
    "C37_find_sec",
    "C37_find_sec_defined"
   ],
   "note": "Also shown to stay inside the image when the names end there."
  },
  {
   "property": "C38",
   "status": "partial",
   "theorems": [
    "C38_unresolved_rejected_refuted",
    "C38_symbols_partial"
   ],
   "note": "Refuted: the result of an unresolved symbol is overwritten by a later resolved one. Partial: exact rule for the result, all symbol values, frame; the symbol table may not overlap the names and section headers it refers to."
  },
  {
   "property": "C39",
   "status": "proved",
   "theorems": [
    "C39_strings",
    "C39_no_magic"
   ],
   "note": "All names without NUL, at any place of any image."
  },
  {
   "property": "C40",
   "status": "proved",
   "theorems": [
    "C40_layout",
    "C40_fields_independent",
    "C40_macro"
   ],
   "note": "All field values; pairwise independence of the fields."
  },
  {
   "property": "C41",
   "status": "proved",
   "theorems": [
    "C41_code_restored",
    "C41_elsewhere_unchanged"
   ],
   "note": "every failure point of every tracing request, wait and signal sequence; a second theorem shows that no other byte is written"
  },
  {
   "property": "C42",
   "status": "partial",
   "theorems": [
    "C42_registers_restored_refuted",
    "C42_registers_restored_partial"
   ],
   "note": "refuted: registers are not restored when waiting for the target or reading its registers fails; partial: restored when the call reports success or could not be started"
  },
  {
   "property": "C43",
   "status": "proved",
   "theorems": [
    "C43_arguments_x86",
    "C43_arguments_a64"
   ],
   "note": "both architectures, against an independent statement of the SYSCALL/INT3 and SVC/BRK instructions; no other signal arrives during the call"
  },
  {
   "property": "C44",
   "status": "proved",
   "theorems": [
    "C44_standard_descriptors"
   ],
   "note": ""
  },
  {
   "property": "C45",
   "status": "partial",
   "theorems": [
    "C45_failure_reported_malloc_refuted",
    "C45_failure_reported_map_refuted",
    "C45_failure_reported_truncate_refuted",
    "C45_failure_reported_partial",
    "C45_map_success"
   ],
   "note": "refuted for allocation (only -1 is taken for an error), for mapping the patch (error code stored as address) and for truncation (0 returned when the call cannot be made); partial: all other calls and failures are reported"
  },
  {
   "property": "C46",
   "status": "proved",
   "theorems": [
    "C46_byte_text_round_trip"
   ],
   "note": "Printing then parsing returns the same bytes and count for every non-empty byte sequence that fits and every separator outside the number syntax."
  },
  {
   "property": "C47",
   "status": "partial",
   "theorems": [
    "C47_strbytes2mem_bounds_refuted",
    "C47_strbytes2mem_bounds_partial"
   ],
   "note": "Refuted: the byte is stored before the length check, so one byte past the buffer can be written. Partial: never more than one byte too many, only on failure; success stays inside; the parser always ends."
  },
  {
   "property": "C48",
   "status": "proved",
   "theorems": [
    "C48_comma_list"
   ],
   "note": "Every string is a join of comma-free pieces, and the result is the list of the non-empty ones."
  },
  {
   "property": "C49",
   "status": "proved",
   "theorems": [
    "C49_elf_build_id_text",
    "C49_bfd_build_id_text"
   ],
   "note": "Both printers (libelf and BFD) for lengths 0..2^31-1; negative lengths are C81."
  },
  {
   "property": "C50",
   "status": "proved",
   "theorems": [
    "C50_decimal_size",
    "C50_hexadecimal_size",
    "C50_address"
   ],
   "note": "Over all digit sequences (leading zeros included) with value below 2^64, either case of hexadecimal, and every suffix; octal addresses too."
  },
  {
   "property": "C51",
   "status": "proved",
   "theorems": [
    "C51_round_down",
    "C51_round_up"
   ],
   "note": "ROUND_UP/DOWN, ALIGN/ALIGN_DOWN, PAGE_UP/DOWN, ELF_PAGE* on unsigned long."
  },
  {
   "property": "C52",
   "status": "proved",
   "theorems": [
    "C52_header"
   ],
   "note": "proved: acceptance is equivalent to the independent statement about header bytes."
  },
  {
   "property": "C53",
   "status": "proved",
   "theorems": [
    "C53_lookup",
    "C53_kinds"
   ],
   "note": "proved by refinement of the red-black tree model: first registered symbol of that name and kind, and which registrations are refused."
  },
  {
   "property": "C54",
   "status": "partial",
   "theorems": [
    "C54_name_partial",
    "C54_unversioned",
    "C54_name_refuted"
   ],
   "note": "false as stated: a prefix of exactly the buffer size writes its terminator behind the buffer (C54_name_refuted); proved for shorter and longer prefixes and unversioned names."
  },
  {
   "property": "C55",
   "status": "proved",
   "theorems": [
    "C55_filter"
   ],
   "note": "proved by induction over the in-place compaction."
  },
  {
   "property": "C56",
   "status": "partial",
   "theorems": [
    "C56_handles_partial",
    "C56_balance_partial",
    "C56_shared_refuted",
    "C56_literal_refuted",
    "C56_leak_refuted",
    "C56_many_refuted"
   ],
   "note": "false as stated: no reference counting (C56_shared_refuted), string literal released (C56_literal_refuted), leaks (C56_leak_refuted), 16-bit handle counter (C56_many_refuted); proved for histories that open ordinary files once each."
  },
  {
   "property": "C57",
   "status": "proved",
   "theorems": [
    "C57_auxv_any",
    "C57_auxv"
   ],
   "note": "proved, for vectors ending with the terminator and for arbitrary files."
  },
  {
   "property": "C58",
   "status": "proved",
   "theorems": [
    "C58_callbacks"
   ],
   "note": "proved over the memory-level list model; callbacks are assumed not to change the chain while it runs."
  },
  {
   "property": "C59",
   "status": "proved",
   "theorems": [
    "C59_names",
    "C59_unknown",
    "C59_filter"
   ],
   "note": "proved: names in any case, unknown names, and filtering of any sequence of messages and level changes, for the log file and for syslog."
  },
  {
   "property": "C60",
   "status": "partial",
   "theorems": [
    "C60_validated_refuted",
    "C60_reported_refuted",
    "C60_unaligned",
    "C60_only_there",
    "C60_validated_partial"
   ],
   "note": "false: a failed read counts as a match (C60_validated_refuted) and a failed write as success (C60_reported_refuted); proved when transfers are complete; unaligned addresses and confinement to the instruction proved for all failures."
  },
  {
   "property": "C61",
   "status": "proved",
   "theorems": [
    "C61_entry"
   ],
   "note": "proved by symbolic execution of the instruction sequence for every register content, stack alignment and conforming hook."
  },
  {
   "property": "C62",
   "status": "proved",
   "theorems": [
    "C62_return"
   ],
   "note": "proved like C61."
  },
  {
   "property": "C63",
   "status": "proved",
   "theorems": [
    "C63_entry",
    "C63_return"
   ],
   "note": "proved like C61, for both trampolines."
  },
  {
   "property": "C64",
   "status": "partial",
   "theorems": [
    "C64_overlap_refused_refuted",
    "C64_free_accepted_refuted",
    "C64_overlap_partial"
   ],
   "note": "Refuted both ways: a mapping strictly inside the range is not noticed, and the byte after the range is tested too (C64_overlap_refused_refuted, C64_free_accepted_refuted). Proved: a refused range touches a mapping at its bytes or the next one, an accepted range overlaps only mappings that lie strictly inside it, a refusal changes nothing."
  },
  {
   "property": "C65",
   "status": "partial",
   "theorems": [
    "C65_region_accepted_refuted",
    "C65_hole_refused_refuted",
    "C65_region_partial"
   ],
   "note": "Refuted both ways: a region ending at the end of a mapping is refused, and only the ends are tested, so that holes are accepted. Proved: accepted iff the first byte and the byte after the region are mapped; a refusal changes nothing."
  },
  {
   "property": "C66",
   "status": "proved",
   "theorems": [
    "C66_kept_while_patched",
    "C66_others_kept",
    "C66_removed",
    "C66_open_close"
   ],
   "note": "Proved over the real index of mappings (C74) and an abstract file system: files kept while patched, other files never touched, own entries removed otherwise, open then close is the identity. Not modelled: permissions; a failed open (no mappings read yet) of a patched process also removes the file comm."
  },
  {
   "property": "C67",
   "status": "partial",
   "theorems": [
    "C67_copy_exact_refuted",
    "C67_directory_refuted",
    "C67_copy_partial"
   ],
   "note": "Refuted: an error while writing ends the loop and the short copy is reported as success; a directory is copied to an empty file with success. Proved: refusals, nothing else changed, prefix always, exact without errors and under 2 GiB."
  },
  {
   "property": "C68",
   "status": "partial",
   "theorems": [
    "C68_bias_refuted",
    "C68_bias_partial"
   ],
   "note": "Refuted for files whose lowest segment does not begin at a page boundary. Proved: right exactly if the segment with the file header begins at the lowest address of all segments, a page boundary."
  },
  {
   "property": "C69",
   "status": "partial",
   "theorems": [
    "C69_a64_reloc_value_refuted",
    "C69_a64_call_refuted",
    "C69_a64_data_value_partial",
    "C69_a64_insn_value_partial",
    "C69_a64_host_place_partial",
    "C69_a64_reloc_frame"
   ],
   "note": "refuted for place-relative types (address of the image in the tool is used as place); partial: place-independent types are right, place-relative ones are right for the address in the tool; frame proved in full"
  },
  {
   "property": "C70",
   "status": "partial",
   "theorems": [
    "C70_rb_destroy_empties_refuted",
    "C70_rb_destroy_root_partial"
   ],
   "note": "refuted: the root pointer is not reset and points to a released node; partial: the root is null afterwards iff the index was empty before"
  },
  {
   "property": "C71",
   "status": "proved",
   "theorems": [
    "C71_rb_replace"
   ],
   "note": ""
  },
  {
   "property": "C72",
   "status": "partial",
   "theorems": [
    "C72_refresh_refuted",
    "C72_refresh_partial"
   ],
   "note": "refuted: records are never removed and a mapping whose range changed is dropped from the index; partial: exact when mappings were only added"
  },
  {
   "property": "C73",
   "status": "proved",
   "theorems": [
    "C73_leaders"
   ],
   "note": ""
  },
  {
   "property": "C74",
   "status": "proved",
   "theorems": [
    "C74_walk_ascending"
   ],
   "note": ""
  },
  {
   "property": "C75",
   "status": "partial",
   "theorems": [
    "C75_foreign_names_refuted",
    "C75_foreign_names_partial"
   ],
   "note": "refuted: any name containing the prefix and the digits of the pid; partial: names lacking one of them are not patches"
  },
  {
   "property": "C76",
   "status": "partial",
   "theorems": [
    "C76_all_released_refuted",
    "C76_all_released_partial"
   ],
   "note": "refuted: a symbol equal to an earlier one in name and address is linked nowhere and leaks; partial: all released when no two agree in both"
  },
  {
   "property": "C77",
   "status": "partial",
   "theorems": [
    "C77_detached_refuted",
    "C77_detached_partial",
    "C77_detached_after_delete"
   ],
   "note": "refuted: the remote open fails and the target stays attached; partial: detached whenever the open succeeded; unmapping always detaches"
  },
  {
   "property": "C78",
   "status": "partial",
   "theorems": [
    "C78_no_write_after_failed_read_refuted"
   ],
   "note": "refuted: the failing read is ignored and uninitialised bytes are written back"
  },
  {
   "property": "C79",
   "status": "partial",
   "theorems": [
    "C79_item_count_refuted",
    "C79_item_count_partial"
   ],
   "note": "Refuted: zero is always returned. Partial: the value is right exactly when there is no item."
  },
  {
   "property": "C80",
   "status": "proved",
   "theorems": [
    "C80_mem2strbytes_bounds",
    "C80_mem2strbytes_refuses"
   ],
   "note": "For every input."
  },
  {
   "property": "C81",
   "status": "partial",
   "theorems": [
    "C81_bfd_negative_length_refuted",
    "C81_bfd_length_partial"
   ],
   "note": "Refuted: the comparison is unsigned, so every negative length passes. Partial: right for all other lengths."
  },
  {
   "property": "C82",
   "status": "partial",
   "theorems": [
    "C82_inside_image_refuted",
    "C82_inside_image_partial"
   ],
   "note": "Refuted: e_shstrndx is not checked (nor sh_name, sh_offset, sh_link). Partial: defined for every well-formed file."
  },
  {
   "property": "C83",
   "status": "proved",
   "theorems": [
    "C83_all_relocations"
   ],
   "note": "For every behaviour of the per-section relocation that leaves the section headers alone."
  },
  {
   "property": "C84",
   "status": "partial",
   "theorems": [
    "C84_whole_file_refuted",
    "C84_whole_file_partial"
   ],
   "note": "Refuted: the size goes through an int (a file of 2^32+64 bytes is loaded as 64 bytes). Partial: files below 2 GiB."
  },
  {
   "property": "C85",
   "status": "partial",
   "theorems": [
    "C85_redirected_into_patch_refuted",
    "C85_recorded_partial"
   ],
   "note": "Refuted: an undefined symbol with the source name is taken, the function then jumps to itself. Partial: the recorded values are those of the names; the record may not overlap the symbol table."
  },
  {
   "property": "C86",
   "status": "partial",
   "theorems": [
    "C86_inside_image_refuted",
    "C86_inside_image_partial"
   ],
   "note": "Refuted: r_offset is not checked. Partial: when the entries lie inside the image."
  },
  {
   "property": "C87",
   "status": "partial",
   "theorems": [
    "C87_tpoff_ignored_refuted",
    "C87_got_refuted",
    "C87_applied_partial"
   ],
   "note": "Refuted: TPOFF64/TPOFF32 are ignored, GOT types are handled as PC32 without a GOT slot. Partial: all other types."
  },
  {
   "property": "C88",
   "status": "partial",
   "theorems": [
    "C88_failed_refuted",
    "C88_failed_partial"
   ],
   "note": "Refuted: short write of the jump. Partial: no short writes."
  },
  {
   "property": "C89",
   "status": "partial",
   "theorems": [
    "C89_crash_refuted",
    "C89_crash_partial"
   ],
   "note": "Refuted: death between storing number/address and copying the code makes the next unpatch write zeros. Partial: from the copy on."
  },
  {
   "property": "C90",
   "status": "proved",
   "theorems": [
    "C90_lookup"
   ],
   "note": "proved."
  },
  {
   "property": "C91",
   "status": "partial",
   "theorems": [
    "C91_any_file_refuted",
    "C91_any_file_partial"
   ],
   "note": "false: a name with more than 256 bytes before the version dereferences NULL (C91_any_file_refuted); proved for shorter names."
  },
  {
   "property": "C92",
   "status": "partial",
   "theorems": [
    "C92_default_version_refuted",
    "C92_default_version_partial"
   ],
   "note": "false: the first version in the table wins (C92_default_version_refuted); proved when only one version exists."
  },
  {
   "property": "C93",
   "status": "partial",
   "theorems": [
    "C93_static_refuted",
    "C93_dynamic_partial"
   ],
   "note": "false: AT_BASE 0 is an error (C93_static_refuted); proved for programs with an interpreter."
  },
  {
   "property": "C94",
   "status": "partial",
   "theorems": [
    "C94_terminates_refuted",
    "C94_terminates_partial"
   ],
   "note": "false: a failing read is retried for ever because -1 is compared as unsigned (C94_terminates_refuted); proved if reads fail finitely often."
  },
  {
   "property": "C95",
   "status": "partial",
   "theorems": [
    "C95_option_refuted",
    "C95_option_partial"
   ],
   "note": "false: 0 is refused, -5 and 7up are accepted (C95_option_refuted); proved for 1 to 7 and the names."
  },
  {
   "property": "C96",
   "status": "partial",
   "theorems": [
    "C96_float_args_refuted",
    "C96_float_args_partial"
   ],
   "note": "false: vector registers are not saved (C96_float_args_refuted, both architectures); proved for hooks that do not change vector registers."
  },
  {
   "property": "C97",
   "status": "partial",
   "theorems": [
    "C97_float_results_refuted",
    "C97_float_results_partial"
   ],
   "note": "false: only the first vector register is saved (C97_float_results_refuted); proved for the first one, and for all with hooks that do not change vector registers."
  },
  {
   "property": "C98",
   "status": "proved",
   "theorems": [
    "C98_requests_x86",
    "C98_requests_a64"
   ],
   "note": "Proved for both architectures: for every kernel (a function of number, arguments and memory) each operation enters it with the literal numbers and arguments of the Linux interface and returns its answer (as int where the C code does); open places the path in the buffer first and unmaps it after."
  },
  {
   "property": "C99",
   "status": "partial",
   "theorems": [
    "C99_verbosity_refuted",
    "C99_verbosity_partial"
   ],
   "note": "Refuted: a second -v option replaces the count of the first (witness -v -v gives 1). Proved: the letters of the last option are counted exactly."
  },
  {
   "property": "C100",
   "status": "partial",
   "theorems": [
    "C100_map_reported_refuted",
    "C100_map_reported_partial"
   ],
   "note": "Refuted: the result of the mapping request is not looked at (error values are not -1). Proved: success implies that attach, open and truncate succeeded and that the mapping was requested with the right arguments."
  },
  {
   "property": "C101",
   "status": "partial",
   "theorems": [
    "C101_unmap_exact_refuted",
    "C101_unmap_reported_refuted",
    "C101_unmap_partial"
   ],
   "note": "Refuted: the length is the size of the backing file when that exists, so that neighbours are unmapped too; the kernel's refusal is ignored. Proved: start is right, length is right when the file does not exist, unmapped addresses are refused without effect."
  },
  {
   "property": "C102",
   "status": "proved",
   "theorems": [
    "C102_redirect",
    "C102_redirect_x86",
    "C102_redirect_a64"
   ],
   "note": "Proved for both architectures against the independent instruction semantics of InsnSpec, for environments that transfer all bytes."
  },
  {
   "property": "C103",
   "status": "partial",
   "theorems": [
    "C103_dump_failure_refuted",
    "C103_dump_over_refuted",
    "C103_dump_partial",
    "C103_dump_mapping"
   ],
   "note": "Refuted: a failed read is ignored and garbage is written; a longer previous file keeps its tail. Proved: exact when the read succeeds and the previous content is not longer; other failures are reported; the process is unchanged."
  },
  {
   "property": "C104",
   "status": "partial",
   "theorems": [
    "C104_read_string_refuted",
    "C104_read_string_partial"
   ],
   "note": "Refuted: a failing read leaves what was in the buffer. Proved when bytes can be read: exact copy incl. terminator for strings up to 1024, else the first 1025 bytes (without terminator)."
  },
  {
   "property": "C105",
   "status": "partial",
   "theorems": [
    "C105_exit_status_refuted",
    "C105_exit_status_partial"
   ],
   "note": "Refuted: failures of dumps and redirections do not reach the exit status. Proved for changes of protection, mapping and unmapping."
  },
  {
   "property": "C106",
   "status": "partial",
   "theorems": [
    "C106_remove_tree_refuted",
    "C106_remove_tree_partial"
   ],
   "note": "Refuted: symbolic links to directories are followed, files outside are removed and the tree stays. Proved exact for trees of regular files and directories by induction on the depth."
  },
  {
   "property": "C107",
   "status": "partial",
   "theorems": [
    "C107_file_size_refuted",
    "C107_file_size_partial"
   ],
   "note": "Refuted for files of 2 GiB and more (int size becomes negative; the read is then unbounded). Proved below."
  },
  {
   "property": "C108",
   "status": "partial",
   "theorems": [
    "C108_touch_refuted",
    "C108_touch_partial"
   ],
   "note": "Refuted: failed writes are only logged. Proved otherwise."
  },
  {
   "property": "C109",
   "status": "partial",
   "theorems": [
    "C109_others_stay_refuted",
    "C109_never_removed",
    "C109_trace_removed_refuted",
    "C109_tracing_partial"
   ],
   "note": "Refuted: when the trace patch cannot be set up, the patch the user had installed is removed and success reported; a successful trace patch is never removed. The partial theorem says what does hold."
  },
  {
   "property": "C110",
   "status": "partial",
   "theorems": [
    "C110_object_refuted"
   ],
   "note": "Refuted: the named object is ignored."
  },
  {
   "property": "C111",
   "status": "partial",
   "theorems": [
    "C111_dry_run_refuted",
    "C111_dry_removal_refuted"
   ],
   "note": "Refuted: the flag is read by no tool; patching and removal take place."
  },
  {
   "property": "C112",
   "status": "partial",
   "theorems": [
    "C112_check_clean_refuted",
    "C112_show_clean_refuted",
    "C112_patch_kept_refuted",
    "C112_files_partial"
   ],
   "note": "Refuted: temp.ulp in the current directory is overwritten and left behind (or the file of the user with that name removed). Proved: no other file changes."
  },
  {
   "property": "C113",
   "status": "partial",
   "theorems": [
    "C113_no_dangling_refuted",
    "C113_no_dangling_partial"
   ],
   "note": "Refuted: a short read of the program headers leaves released pointers in place; they are used and released again. Proved for complete and failing reads."
  },
  {
   "property": "C114",
   "status": "partial",
   "theorems": [
    "C114_unread_unused_refuted",
    "C114_unread_unused_partial"
   ],
   "note": "Refuted: a failing read of the program headers is not noticed (comparison of unsigned numbers). Proved for the file header and for all other outcomes."
  },
  {
   "property": "C115",
   "status": "proved",
   "theorems": [
    "C115_segment_match"
   ],
   "note": ""
  },
  {
   "property": "C116",
   "status": "proved",
   "theorems": [
    "C116_dump_layout",
    "C116_dump_injective"
   ],
   "note": "Full: layout of every line, and that a dump determines the bytes; data up to 2^31-16 bytes (beyond, an int of the code overflows)."
  },
  {
   "property": "C117",
   "status": "partial",
   "theorems": [
    "C117_dump_reads_refuted",
    "C117_dump_reads_partial"
   ],
   "note": "False of the code: for a last line that is not full, isprint reads all 16 positions, up to 15 bytes beyond the data (refuted). Partial: it reads exactly the bytes of the lines it begins, hence only the data if their number is a multiple of 16."
  },
  {
   "property": "C118",
   "status": "partial",
   "theorems": [
    "C118_dump_count_refuted",
    "C118_dump_count_partial"
   ],
   "note": "False of the code: the inner variable len shadows the outer one, so only 15 of the 80 characters of a line are counted (refuted). Partial: the exact ratio; no data or no stream writes nothing."
  },
  {
   "property": "C119",
   "status": "proved",
   "theorems": [
    "C119_shown_bytes_round_trip",
    "C119_print_bytes"
   ],
   "note": "Full."
  },
  {
   "property": "C120",
   "status": "partial",
   "theorems": [
    "C120_file_shown_refuted",
    "C120_file_shown_partial"
   ],
   "note": "False of the code: NUL bytes, and what follows them in a chunk, are lost by the line printer (refuted). Partial: exact for files without NUL bytes; exact for all files through a descriptor."
  },
  {
   "property": "C121",
   "status": "proved",
   "theorems": [
    "C121_file_type"
   ],
   "note": "Full for non-empty files; empty ones are C122."
  },
  {
   "property": "C122",
   "status": "partial",
   "theorems": [
    "C122_failed_map_leaves_nothing_refuted",
    "C122_ftype_empty_refuted",
    "C122_failed_map_leaves_nothing_partial"
   ],
   "note": "False of the code: when mmap or ftruncate fails the descriptor stays open, in particular for an empty file (refuted, twice). Partial: map and unmap restore everything; a missing file or failed open leave no descriptor."
  },
  {
   "property": "C123",
   "status": "proved",
   "theorems": [
    "C123_proc_paths"
   ],
   "note": "Full."
  },
  {
   "property": "C124",
   "status": "partial",
   "theorems": [
    "C124_process_name_refuted",
    "C124_process_name_partial"
   ],
   "note": "False of the code: fscanf with %s takes the first word of the name only (refuted with the name of the tmux server). Partial: exact for names without blanks; the first word otherwise; a name of blanks is an error or leaves it empty."
  },
  {
   "property": "C125",
   "status": "partial",
   "theorems": [
    "C125_link_text_refuted",
    "C125_link_text_partial"
   ],
   "note": "False of the code for buffers of the length of the text: strncpy leaves no NUL (refuted). Partial: exact with room for the NUL, which the tool's own buffers of PATH_MAX bytes always have; nothing outside the buffer is written; links to nothing are refused."
  },
  {
   "property": "C126",
   "status": "proved",
   "theorems": [
    "C126_identifiers",
    "C126_missing",
    "C126_one_missing"
   ],
   "note": "Full for status files as the kernel writes them; the parsing of other lines in arbitrary order is included."
  },
  {
   "property": "C127",
   "status": "partial",
   "theorems": [
    "C127_identifiers_shown_refuted",
    "C127_identifiers_shown_partial"
   ],
   "note": "False of the code: %d for unsigned identifiers, 4294967294 is shown as -2 (refuted). Partial: identifiers below 2^31."
  },
  {
   "property": "C128",
   "status": "proved",
   "theorems": [
    "C128_threads"
   ],
   "note": "Full."
  },
  {
   "property": "C129",
   "status": "partial",
   "theorems": [
    "C129_descriptors_refuted",
    "C129_descriptors_partial"
   ],
   "note": "False of the code: when the link of a descriptor cannot be read any more the node of a null pointer is linked and the tool crashes (refuted). Partial: exact if all links can be read; it crashes exactly if one cannot."
  },
  {
   "property": "C130",
   "status": "proved",
   "theorems": [
    "C130_current_never_dangling"
   ],
   "note": "Full, by induction on the sequence of calls."
  },
  {
   "property": "C131",
   "status": "partial",
   "theorems": [
    "C131_current_is_last_open_refuted",
    "C131_current_is_last_open_partial"
   ],
   "note": "False of the code: closing any process resets the current one to none (refuted with two processes). Partial: with one process at a time, and after each successful opening."
  },
  {
   "property": "C132",
   "status": "partial",
   "theorems": [
    "C132_cause_refuted",
    "C132_cause_partial"
   ],
   "note": "False of the code: without permission for the memory file the error number left is 0 (refuted). Partial: an error number other than 0 is that of the failing step; the steps that leave 0 are listed."
  },
  {
   "property": "C133",
   "status": "partial",
   "theorems": [
    "C133_vanished_refuted",
    "C133_vanished_partial"
   ],
   "note": "False of the code: fopen of the name file is not checked (refuted). Partial: no crash if name, status and descriptor links can be read."
  },
  {
   "property": "C134",
   "status": "partial",
   "theorems": [
    "C134_failed_open_refuted",
    "C134_failed_open_partial",
    "C134_close"
   ],
   "note": "False of the code: a failing open removes the name file of a patched process (refuted). Partial: nothing but the three entries of the private directory is touched; a directory with patch files in it stays."
  },
  {
   "property": "C135",
   "status": "partial",
   "theorems": [
    "C135_descriptors_returned_refuted",
    "C135_descriptors_returned_partial"
   ],
   "note": "False of the code: the stream of a blank name is not closed; a memory descriptor of at most 2 is not closed (refuted, both). Partial: otherwise all descriptors are returned on failure at once and on close otherwise."
  },
  {
   "property": "C136",
   "status": "partial",
   "theorems": [
    "C136_only_what_is_asked_refuted",
    "C136_only_what_is_asked_partial"
   ],
   "note": "False of the code: the flag for ELF headers alone also opens the ELF files and loads the symbols, because composite masks are tested for any common bit (refuted). Partial: what is asked for is loaded; threads, descriptors and private directory only if asked for."
  },
  {
   "property": "C137",
   "status": "partial",
   "theorems": [
    "C137_map_read_refuted",
    "C137_map_read_partial"
   ],
   "note": "False of the code: the path is cut at the first blank, and inode numbers from 2^63 are cut off (refuted, both). Partial: exact for paths without blanks of at most 255 bytes, inode numbers below 2^63 and lines below 1023 bytes."
  },
  {
   "property": "C138",
   "status": "partial",
   "theorems": [
    "C138_deleted_refuted",
    "C138_deleted_partial"
   ],
   "note": "False of the code: a path and the same path marked as deleted are read alike (refuted). Partial: the name is the first word of the path, at most 255 bytes of it, and equals the path exactly if the path has no blanks and at most 255 bytes."
  },
  {
   "property": "C139",
   "status": "partial",
   "theorems": [
    "C139_one_per_line_refuted",
    "C139_one_per_line_partial"
   ],
   "note": "False of the code: a path of about thousand bytes yields a second, wild mapping, or no map at all (refuted, both). Partial: lines below 1023 bytes, whatever the paths."
  },
  {
   "property": "C140",
   "status": "partial",
   "theorems": [
    "C140_buffers_refuted",
    "C140_buffers_partial"
   ],
   "note": "False of the code: the rest of a long line is parsed as a line of its own, and its permission word is stored in 5 bytes without a limit (refuted). Partial: lines below 1023 bytes."
  },
  {
   "property": "C141",
   "status": "proved",
   "theorems": [
    "C141_lookup_from_text"
   ],
   "note": "Through the text parser, the insertion into list and tree, and the lookup; lines below 1023 bytes."
  },
  {
   "property": "C142",
   "status": "proved",
   "theorems": [
    "C142_page_size"
   ],
   "note": "Page sizes 2^1 to 2^30; the three states the two cached values can be in."
  },
  {
   "property": "C143",
   "status": "proved",
   "theorems": [
    "C143_listing_tells",
    "C143_offset"
   ],
   "note": "Listing without detail. The offset listed is that of the file for offsets that are multiples of the page size."
  },
  {
   "property": "C144",
   "status": "proved",
   "theorems": [
    "C144_notes",
    "C144_file"
   ],
   "note": "Little-endian 64-bit files with notes aligned to 4, through the meaning of gelf_getnote."
  },
  {
   "property": "C145",
   "status": "partial",
   "theorems": [
    "C145_notes_safe_partial",
    "C145_notes_safe_refuted"
   ],
   "note": "False: the room for the digits of a build id is computed in 32 bits, so a descriptor of 2^31 bytes gets one byte. Partial: sections below 2^31 bytes."
  },
  {
   "property": "C146",
   "status": "partial",
   "theorems": [
    "C146_reads_partial",
    "C146_reads_refuted"
   ],
   "note": "False: a symbol name outside the string table, a symbol in a section that does not exist, or a symbol table that cannot be read makes the tool use an invalid pointer. Partial: files whose names, symbols and interpreter are well-formed; notes arbitrary below 2^31 bytes."
  },
  {
   "property": "C147",
   "status": "proved",
   "theorems": [
    "C147_lookup"
   ],
   "note": "The index is a list here; that the tree behaves so is C53."
  },
  {
   "property": "C148",
   "status": "partial",
   "theorems": [
    "C148_traceable_partial",
    "C148_traceable_refuted"
   ],
   "note": "False for object files: the undefined mcount has no type and only functions are looked at. Partial: recognised exactly if a symbol of type function, first of its name and kind, has such a name."
  },
  {
   "property": "C149",
   "status": "partial",
   "theorems": [
    "C149_segments_partial",
    "C149_segments_refuted"
   ],
   "note": "False for uninitialised data: offsets and sizes in the file are compared, so its symbols get no segment. Partial: exactly the segments whose part of the file holds the section, when no sum wraps."
  },
  {
   "property": "C150",
   "status": "partial",
   "theorems": [
    "C150_symbols_partial",
    "C150_symbols_refuted"
   ],
   "note": "False: the visibility is taken from the wrong byte (st_info), so it says nothing about the symbol. Partial: name, value, size, section, and types and bindings that have a name."
  },
  {
   "property": "C151",
   "status": "partial",
   "theorems": [
    "C151_versions_partial",
    "C151_versions_refuted"
   ],
   "note": "False: the test for the version section is the wrong way round, so versions are never found. Partial: no wrong version is ever given."
  },
  {
   "property": "C152",
   "status": "partial",
   "theorems": [
    "C152_phdrs_partial",
    "C152_phdrs_refuted"
   ],
   "note": "False for types without a name in the table. Partial: all other fields, the three permission bits, and named types."
  },
  {
   "property": "C153",
   "status": "partial",
   "theorems": [
    "C153_header_partial",
    "C153_not_elf",
    "C153_header_refuted"
   ],
   "note": "False for machines and types without a name. Partial: all other fields; what is refused is proved in full."
  },
  {
   "property": "C154",
   "status": "proved",
   "theorems": [
    "C154_forms"
   ],
   "note": "getopt_long as glibc documents it, both directions."
  },
  {
   "property": "C155",
   "status": "proved",
   "theorems": [
    "C155_misuse"
   ],
   "note": "The limit on paths is the kernel's; without it the copy of the path could overflow."
  },
  {
   "property": "C156",
   "status": "partial",
   "theorems": [
    "C156_pid_partial",
    "C156_pid_refuted"
   ],
   "note": "False for texts with trailing characters and numbers beyond int. Partial: texts that are decimal numbers below 2^31; the process exists; the last option counts."
  },
  {
   "property": "C157",
   "status": "partial",
   "theorems": [
    "C157_command_partial",
    "C157_command_refuted"
   ],
   "note": "False with several commands: only the last one is done. Partial: one kind of command."
  },
  {
   "property": "C158",
   "status": "proved",
   "theorems": [
    "C158_output"
   ],
   "note": "The existence of the file is that at the time of the test."
  },
  {
   "property": "C159",
   "status": "proved",
   "theorems": [
    "C159_read_only"
   ],
   "note": "In full."
  },
  {
   "property": "C160",
   "status": "proved",
   "theorems": [
    "C160_protect",
    "C160_order"
   ],
   "note": "In full; numbers as str2addr reads them (C50)."
  },
  {
   "property": "C161",
   "status": "partial",
   "theorems": [
    "C161_length_partial",
    "C161_length_refuted"
   ],
   "note": "False for the suffixes KB, MB, GB. Partial: plain decimal and hexadecimal numbers."
  },
  {
   "property": "C162",
   "status": "partial",
   "theorems": [
    "C162_map_partial",
    "C162_map_refuted"
   ],
   "note": "False for names with a comma. Partial: all other names, all orders."
  },
  {
   "property": "C163",
   "status": "partial",
   "theorems": [
    "C163_path_partial",
    "C163_path_refuted"
   ],
   "note": "False if the directory of the target cannot be read or the path is too long. Partial: otherwise."
  },
  {
   "property": "C164",
   "status": "partial",
   "theorems": [
    "C164_again_partial",
    "C164_again_refuted"
   ],
   "note": "False: the command of the earlier call is kept. Partial: lines that give a command."
  },
  {
   "property": "C165",
   "status": "partial",
   "theorems": [
    "C165_directory_partial",
    "C165_directory_refuted"
   ],
   "note": "False on the first run under a umask that takes write permission, and for a second user. Partial: otherwise."
  },
  {
   "property": "C166",
   "status": "partial",
   "theorems": [
    "C166_shown_partial",
    "C166_shown_refuted"
   ],
   "note": "False with both a file and a process. Partial: one of them."
  },
  {
   "property": "C167",
   "status": "partial",
   "theorems": [
    "C167_dump_partial",
    "C167_dump_refuted"
   ],
   "note": "False with several --dump: they mix. Partial: one --dump."
  },
  {
   "property": "C168",
   "status": "partial",
   "theorems": [
    "C168_running_partial",
    "C168_machines",
    "C168_running_refuted"
   ],
   "note": "partial: functions are at least 16 bytes apart and the replaced program neither uses nor writes the first 16 bytes of replaced functions (C168_running_refuted: a shorter function, whose neighbour is overwritten); C168_machines: the x86_64 and aarch64 instruction models meet the conditions on the machine"
  },
  {
   "property": "C169",
   "status": "partial",
   "theorems": [
    "C169_inside_refuted",
    "C169_inside_partial"
   ],
   "note": "partial: threads outside the 16 bytes of the jump; refuted for a thread inside them (the tool does not look at where threads are)"
  },
  {
   "property": "C170",
   "status": "partial",
   "theorems": [
    "C170_removed_refuted",
    "C170_removed_partial"
   ],
   "note": "partial: if no thread uses the removed mapping any more; refuted for a thread inside the replacement (the mapping is unmapped under it)"
  },
  {
   "property": "C171",
   "status": "partial",
   "theorems": [
    "C171_torn_refuted",
    "C171_torn_partial"
   ],
   "note": "partial: threads that do not come to the function while it is written; refuted (only the thread group leader is stopped and the copy is not atomic)"
  },
  {
   "property": "C172",
   "status": "partial",
   "theorems": [
    "C172_tools_refuted",
    "C172_same_number",
    "C172_tools_partial"
   ],
   "note": "partial: each patch saves the code that its jump replaced; refuted: both tools accept one file and choose one number (C172_same_number), and after removing all patches the function jumps into an unmapped mapping"
  },
  {
   "property": "C173",
   "status": "partial",
   "theorems": [
    "C173_write_string_refuted",
    "C173_write_string_partial"
   ],
   "note": "partial: complete writes, and strings of at most 1024 bytes to be read back; refuted: a failing write is not reported"
  },
  {
   "property": "C174",
   "status": "partial",
   "theorems": [
    "C174_linked_partial",
    "C174_linked_refuted"
   ],
   "note": "partial: x86_64; kernel and process behave (run_ok) and nothing in the file overlaps (linkable); refuted: an undefined function that the process does not have is linked to address 0 and success is reported, if a symbol that it has comes later in the table"
  },
  {
   "property": "C175",
   "status": "partial",
   "theorems": [
    "C175_linked_tool_partial",
    "C175_linked_partial",
    "C175_linked_refuted"
   ],
   "note": "partial: files without place-relative relocations; with them, the values are those for the address of the file in the tool; refuted: a bl of a patch that is reported as applied does not go to its function"
  },
  {
   "property": "C176",
   "status": "proved",
   "theorems": [
    "C176_names"
   ],
   "note": "full; names have fewer than 256 bytes before their version suffix (C90), memory allocation succeeds, and the patches in the process are well-formed and recognised by the tool"
  },
  {
   "property": "C177",
   "status": "partial",
   "theorems": [
    "C177_stub_refuted",
    "C177_static_refuted",
    "C177_order_refuted",
    "C177_version_refuted",
    "C177_indirect_refuted",
    "C177_binding_partial"
   ],
   "note": "false in five ways, each with a witness: the stub of the program comes before the library function it jumps to (replacing the function by name then only redirects the calls of the program); a static function hides an exported one; libraries are searched by address; the first version of a function is taken instead of the default one; an indirect function denotes its resolver. Partial: holds if no patch defines the name (C179), no file mapped lower has any symbol of that name and the file bound has it only at that address"
  },
  {
   "property": "C178",
   "status": "partial",
   "theorems": [
    "C178_data_refuted",
    "C178_data_partial"
   ],
   "note": "false: the symbols of a file mapped as data count, with a load address made from its mapping, and come first if it is mapped lowest. Partial: for names that the file has no symbol of"
  },
  {
   "property": "C179",
   "status": "partial",
   "theorems": [
    "C179_patches_refuted",
    "C179_patches_partial"
   ],
   "note": "false: the functions and variables that a patch defines are registered before those of the files, so that they hide what the process has under the same names (witness: a patch with a function log_it and a program with a function log_it; the next patch that calls or replaces log_it gets the one in the first patch). Partial: for names that the patch does not define; in full for mappings without ELF header and unreadable files"
  },
  {
   "property": "C180",
   "status": "proved",
   "theorems": [
    "C180_listing",
    "C180_verbose"
   ],
   "note": "full, for the symbols registered when the process was opened (C176 says which)"
  },
  {
   "property": "C181",
   "status": "partial",
   "theorems": [
    "C181_alphabetical_refuted",
    "C181_alphabetical_partial"
   ],
   "note": "false: the order is the reverse of the alphabetical one, which is what the partial theorem says"
  },
  {
   "property": "C182",
   "status": "partial",
   "theorems": [
    "C182_complete_refuted",
    "C182_complete_partial"
   ],
   "note": "false: bytes that are no instruction end the disassembly without notice. Partial: shown is everything up to there, and no instruction at all is reported. Capstone is an arbitrary decoder that goes on until there is no instruction"
  },
  {
   "property": "C183",
   "status": "partial",
   "theorems": [
    "C183_addresses_refuted",
    "C183_addresses_partial"
   ],
   "note": "false: the addresses shown are those of the copy in the tool. Partial: offsets are right"
  },
  {
   "property": "C184",
   "status": "partial",
   "theorems": [
    "C184_bytes_refuted",
    "C184_bytes_partial"
   ],
   "note": "false: after a read that ends early, what malloc left is shown. Partial: if all bytes could be read they are shown, if none could this is reported"
  },
  {
   "property": "C185",
   "status": "partial",
   "theorems": [
    "C185_vdso_refuted",
    "C185_vdso_partial"
   ],
   "note": "false: without a vdso the tool reads through a null pointer. Partial: with one vdso it is what is dumped (C103)"
  },
  {
   "property": "C186",
   "status": "partial",
   "theorems": [
    "C186_undisturbed_refuted",
    "C186_mapping_refuted",
    "C186_undisturbed_x86_partial",
    "C186_undisturbed_a64_partial"
   ],
   "note": "refuted: a SIGSTOP sent by somebody else before the system call instruction ran is taken for the end of the call; success is reported, the result is the content of the result register (the call number 9 for mmap on x86_64), so the patch is believed to be mapped at address 9. Partial: any number of signals other than SIGSTOP, SIGTRAP and SIGSEGV do no harm, on both architectures."
  },
  {
   "property": "C187",
   "status": "partial",
   "theorems": [
    "C187_delivered_refuted",
    "C187_delivered_partial"
   ],
   "note": "refuted: a SIGTRAP reported while attaching and a foreign SIGSTOP or SIGTRAP during a remote call are swallowed although success is reported. Partial: for all event sequences, nothing else is lost when attaching or the call succeeds, at most the last reported signal when it fails, and nothing is invented."
  },
  {
   "property": "C188",
   "status": "partial",
   "theorems": [
    "C188_listed_refuted",
    "C188_listed_partial"
   ],
   "note": "refuted: a patch that a version of the tool with another ULPATCH_FILE_VERSION put into the process stays in the list without being filled, and the row is printed from uninitialised memory (a null or wild pointer).  Partial: for every list of mappings whose ELF ones are recognised, have a number below 2^31 and a time that localtime accepts, the text is a head that does not depend on them and one row each, as claimed.  The output of --verbose beyond C189 is not covered"
  },
  {
   "property": "C189",
   "status": "partial",
   "theorems": [
    "C189_read_refuted",
    "C189_own_refuted",
    "C189_jump_partial"
   ],
   "note": "refuted twice: a failed read is ignored and the stack of the tool is shown; with two patches of one function, applied one after the other, the older one is shown with the jump to the newer one.  Partial: if the read is complete, the address in the code of the function is shown, after the disassembly of its 16 bytes"
  },
  {
   "property": "C190",
   "status": "partial",
   "theorems": [
    "C190_choice_partial",
    "C190_library_partial",
    "C190_library_refuted",
    "C190_unreadable"
   ],
   "note": "refuted: a library with another name that starts with libc- (libc-client.so.2007e) mapped below the C library is taken for it.  Partial: the choice is exactly the first executable mapping of a file other than the executable whose name starts with libc.so, libssp or libc-, and the first [stack], or a refusal if one is missing; hence if all such files are C libraries, one is found.  Maps whose paths have blanks or more than 255 bytes are excluded (C137, C138)"
  },
  {
   "property": "C191",
   "status": "partial",
   "theorems": [
    "C191_operands_refuted",
    "C191_left_out_refuted",
    "C191_stored_refuted",
    "C191_call_partial",
    "C191_a64_exit",
    "C191_process_refuted"
   ],
   "note": "Refuted four ways: an operand may be overwritten before it is read, a call whose result is unused may be left out (x86-64 exit too), the time to sleep may not be stored yet, exit ends one thread only. Partial: operands apart, statement kept, object stored; the exit of aarch64 is always made."
  },
  {
   "property": "C192",
   "status": "partial",
   "theorems": [
    "C192_result_refuted",
    "C192_lost",
    "C192_result_partial"
   ],
   "note": "Refuted: the statement never writes its output operand. Partial: right if the compiler happens to choose rax; on aarch64 the value is shown to be independent of the kernel (C192_lost)."
  },
  {
   "property": "C193",
   "status": "partial",
   "theorems": [
    "C193_registers_refuted",
    "C193_red_zone_refuted",
    "C193_frame_partial",
    "C193_hello_partial"
   ],
   "note": "Refuted: registers that are not declared change, and the greeting overwrites the red zone on x86-64. Partial: exactly which registers and which bytes of the stack change."
  },
  {
   "property": "C194",
   "status": "partial",
   "theorems": [
    "C194_bytes_refuted",
    "C194_number_refuted",
    "C194_hello_partial"
   ],
   "note": "Refuted: NUL bytes are written too, and on x86-64 only the lowest byte of the call number is set. Partial: what is shown is the line if three registers were below 256 (no condition on aarch64)."
  },
  {
   "property": "C195",
   "status": "proved",
   "theorems": [
    "C195_trace"
   ],
   "note": "Proved. That the object so settled is then not the one installed is C110."
  },
  {
   "property": "C196",
   "status": "proved",
   "theorems": [
    "C196_settings"
   ],
   "note": "Proved, for words shorter than 2^31-1. Nothing reads the dry run flag (C111)."
  },
  {
   "property": "C197",
   "status": "proved",
   "theorems": [
    "C197_summary"
   ],
   "note": "Proved."
  },
  {
   "property": "C198",
   "status": "proved",
   "theorems": [
    "C198_leader"
   ],
   "note": "Groups are modelled by the leader of each mapping; first reading of the maps."
  },
  {
   "property": "C199",
   "status": "partial",
   "theorems": [
    "C199_mark_partial",
    "C199_inside_partial",
    "C199_outside_refuted",
    "C199_unmarked_refuted"
   ],
   "note": "Exact characterisation of the marked mappings, and that these start inside segments if the last entry of the table ends inside one. Refuted: PT_LOAD falls through to PT_GNU_RELRO and the end of a mapping is compared with itself, so a second mapping of the file right behind the last segment is marked; a protected part whose end is not at a page border is not marked."
  },
  {
   "property": "C200",
   "status": "partial",
   "theorems": [
    "C200_voffset_refuted",
    "C200_voffset_partial"
   ],
   "note": "Proved for files whose segments have the same pages in the file and in memory. Refuted: file offsets are compared with link-time addresses, so a mapping is shown with the address of another segment."
  },
  {
   "property": "C201",
   "status": "proved",
   "theorems": [
    "C201_patched"
   ],
   "note": "For the histories of C29."
  },
  {
   "property": "C202",
   "status": "partial",
   "theorems": [
    "C202_pie_partial",
    "C202_pie_refuted"
   ],
   "note": "Proved when all ELF headers found in mappings of the program file are its own. Refuted: a later mapping of the file that starts with another ELF header decides."
  },
  {
   "property": "C203",
   "status": "partial",
   "theorems": [
    "C203_leaders_refuted",
    "C203_leaders_partial"
   ],
   "note": "Refuted: a mapping added next to mappings of the same file becomes a group of its own, because the mapping before a new line is not remembered when that line is skipped. Partial: maps that only grew, by mappings with names of their own that do not come between two mappings of one object (as patches are). Missing (false): otherwise."
  },
  {
   "property": "C204",
   "status": "partial",
   "theorems": [
    "C204_names_refuted",
    "C204_names_partial"
   ],
   "note": "Refuted: a mapping of the same range keeps the name it had, so a file mapped in place of another is not noticed. Partial: maps that only grew. Missing (false): otherwise."
  },
  {
   "property": "C205",
   "status": "proved",
   "theorems": [
    "C205_listing",
    "C205_not_asked"
   ],
   "note": "proved, from the file of the kernel to the text shown; sizes and numbers of 2^63 and more are shown as negative decimals, for them only the hexadecimal is stated"
  },
  {
   "property": "C206",
   "status": "partial",
   "theorems": [
    "C206_state_refuted",
    "C206_state_x86_partial",
    "C206_state_a64_partial"
   ],
   "note": "Refuted: if the kernel answers with an error (no such descriptor), success is returned with a meaningless state. Partial: on both processors the request is made with that descriptor, what the kernel stored is delivered and the memory is given back. Missing (false): the error."
  },
  {
   "property": "C207",
   "status": "partial",
   "theorems": [
    "C207_prctl_refuted",
    "C207_prctl_x86_partial",
    "C207_prctl_a64_partial"
   ],
   "note": "Refuted: a call that could not be made returns 0, the value for success. Partial: targets that run undisturbed. Missing (false): failures."
  },
  {
   "property": "C208",
   "status": "partial",
   "theorems": [
    "C208_opened_refuted",
    "C208_unreadable_refuted",
    "C208_opened_partial"
   ],
   "note": "False in general: a negative count from libbfd (damaged symbol table) is used as the size of a copy, and a file that exists but cannot be opened makes libbfd work on NULL. Proved when the file can be opened, the counts are in order and names are short: NULL exactly for missing files, archives and non-objects, else lookups answer the first symbol."
  },
  {
   "property": "C209",
   "status": "partial",
   "theorems": [
    "C209_closed_refuted",
    "C209_closed_partial"
   ],
   "note": "False in general: of two symbols with one name in one class the second is refused by the tree and leaked. Proved for all files: nothing is freed twice or without having been allocated; when names are distinct in each class, exactly what was allocated is freed."
  },
  {
   "property": "C210",
   "status": "partial",
   "theorems": [
    "C210_failed_refuted",
    "C210_failed_partial"
   ],
   "note": "False: for archives and non-objects the struct for the file stays allocated. Proved: that is all that stays, and nothing for a missing file."
  },
  {
   "property": "C211",
   "status": "partial",
   "theorems": [
    "C211_author_refuted",
    "C211_number_refuted",
    "C211_shown_partial",
    "C211_refused"
   ],
   "note": "C211_shown_partial: every text that is printed is right, and there is one for a recognised file whose strings and record are inside it and whose time has a date; C211_refused: an error if and only if there is no text. C211_author_refuted: a section header of the author that points behind the end of the file is followed. C211_number_refuted: numbers of 2^31 and more are shown as negative ones. A process is not open (the jump shown for a process is C189); creation and removal of the temporary copy of the file are not part of the model."
  },
  {
   "property": "C212",
   "status": "partial",
   "theorems": [
    "C212_overwritten_refuted",
    "C212_removed_refuted",
    "C212_own_file_partial"
   ],
   "note": "C212_own_file_partial: if the name is free, what exists is kept, a failure leaves everything as it was, success makes a full copy; the name is free if the working directory is that of the patches. C212_overwritten_refuted, C212_removed_refuted: the name is looked for in the working directory and used in the directory of the process, so that the file of an applied patch can be overwritten or removed. What the steps after the copy do to the process is C39 and others."
  },
  {
   "property": "C213",
   "status": "partial",
   "theorems": [
    "C213_left_refuted",
    "C213_clean_partial"
   ],
   "note": "C213_clean_partial: for a descriptor other than 0. C213_left_refuted: descriptor 0 is taken for an error and the file stays. mkstemp is modelled as documented for glibc; buffers are long enough."
  },
  {
   "property": "C214",
   "status": "partial",
   "theorems": [
    "C214_variable_refuted",
    "C214_class_partial",
    "C214_found_partial"
   ],
   "note": "C214_class_partial, C214_found_partial: for all sections but those without bytes in the file that are not .bss, provided that sections with reserved names have the attributes of the gABI. C214_variable_refuted: a variable of another section without bytes (.lbss, .tbss) is in no class and is not found. The flags of libbfd are derived from the section headers as in its elf.c; which name is found, when several symbols have it, is C90."
  },
  {
   "property": "C215",
   "status": "partial",
   "theorems": [
    "C215_first_call_refuted",
    "C215_x86_partial",
    "C215_a64"
   ],
   "note": "C215_a64: AArch64, in full (what the generated branch does is C27). C215_x86_partial: x86-64, if no instruction before the call contains the byte e8. C215_first_call_refuted: the byte is looked for at each address, not at each instruction, so that in sub $0xe8,%rsp; call the operand of the subtraction is taken for the call and the first instruction is destroyed. That the loop ends if there is no call is not claimed: it does not."
  },
  {
   "property": "C216",
   "status": "partial",
   "theorems": [
    "C216_escapes",
    "C216_text_refuted",
    "C216_text_partial",
    "C216_accepted"
   ],
   "note": "C216_escapes: for any text the bytes are exactly those of the escape sequences of the assembler, and a text is accepted if and only if it has such a reading. C216_text_partial, C216_accepted: for texts without quotes and backslashes. C216_text_refuted: the assembler takes a backslash for the beginning of an escape sequence, so that the author CORP\\tom is shown with a tab. The assembler is modelled by its reading of strings (gas/read.c)."
  },
  {
   "property": "C217",
   "status": "partial",
   "theorems": [
    "C217_all_refuted",
    "C217_first_partial"
   ],
   "note": "C217_first_partial: the first replacement is found as written, with a record of version 5 that says that the patch was not applied. C217_all_refuted: a second one is accepted and passed over. What is done with the first one is C85 and others."
  },
  {
   "property": "C218",
   "status": "partial",
   "theorems": [
    "C218_flags_partial",
    "C218_refused",
    "C218_told",
    "C218_stdout_refuted",
    "C218_compiler_refuted"
   ],
   "note": "C218_told: --help and --version come first and print nothing else. Proved for commands of one word that write nothing to their standard error: status 0 and the exact line, whatever the order and spelling of the options (the usage text asks for --cc before --cflags; the order does not matter); every unusable command line ends with status 1 and without flags. Refuted in full twice: \"2>&1 >/dev/null\" sends what the compiler says on its standard error to the standard output, in front of the flags; and a compiler of several words (\"ccache gcc\", \"gcc -m32\") is cut off after the first, so that the flags are those of another command. Failing getopt(1) ends the script by set -e, so that the usage text of line 189 is never shown."
  },
  {
   "property": "C219",
   "status": "partial",
   "theorems": [
    "C219_selected_refuted",
    "C219_selected_partial"
   ],
   "note": "Refuted in full: should_skip computes whether a test is to be left out and then sets the answer to false (lines 494-495), so that every test is run and listed whatever the options. What remains is proved: no selected test is left out, and if all tests are selected (without options for instance) the course of the run is the right one. That the records of the tests are found in the section of the program (init_tests) is not modelled."
  },
  {
   "property": "C220",
   "status": "proved",
   "theorems": [
    "C220_status"
   ],
   "note": "For every option and every oracle of results. SIGINT, which ends the program with status 1, and times are left out."
  },
  {
   "property": "C221",
   "status": "partial",
   "theorems": [
    "C221_last_refuted",
    "C221_mix_refuted",
    "C221_roles_partial"
   ],
   "note": "One -r: proved for all texts, refusals included. Refuted in full twice: the roles of a second -r are added to those of the first instead of replacing them, and several threads among several roles are accepted but end the program with an error half-way. The other options that some roles need are taken to be right."
  }
 ]
}