{"id": "C01", "title": "Ordered index stays a balanced search tree under insertion", "statement": "Starting from an empty index, after any sequence of insertions with a consistent comparison function the index is a search tree in comparison order, is red-black balanced (black root, no red node with a red child, the same number of black nodes on every path) and contains exactly the first inserted element of every group of comparison-equal elements; an insertion reports the already present equal element iff there is one and then changes nothing.", "quantifier": "all element types, all comparison functions that are consistent total preorders, all finite insertion sequences", "why_tests_cant": "Rebalancing has many shape-dependent cases that recurse upwards; tests exercise a few tree shapes, the claim is about every reachable shape.", "anchors": ["src/utils/rbtree.h:rb_insert_node", "src/utils/rbtree.c:__rb_insert", "src/utils/rbtree.c:rb_insert_color"]}
{"id": "C02", "title": "Ordered index lookup is exact", "statement": "A lookup in an index built by insertions and removals returns an element iff some element currently in the index compares equal to the key, and then returns that element; the number of comparisons is at most 2*log2(n+1) for n elements.", "quantifier": "all reachable indexes, all keys, all comparison functions monotone along the index order", "why_tests_cant": "A false negative only shows for particular shapes and keys; the bound is a statement about every tree.", "anchors": ["src/utils/rbtree.h:rb_search_node"]}
{"id": "C03", "title": "Removing an element from the ordered index removes only that element", "statement": "Removing an element that is in the index yields an index that is still a red-black search tree and whose in-order contents are the old contents without exactly that element.", "quantifier": "all valid red-black trees and all elements of them", "why_tests_cant": "Deletion has the most intricate rebalancing cases (mirror images, successor splice, four sibling cases) and errors appear only in rare shapes.", "anchors": ["src/utils/rbtree.c:rb_erase", "src/utils/rbtree.c:____rb_erase_color", "src/utils/rbtree.h:__rb_erase"]}
{"id": "C04", "title": "Walking the ordered index visits every element once, in order", "statement": "Starting at the first element and repeatedly moving to the next one visits every element of the index exactly once, in comparison order, and then stops; walking backwards from the last one visits the reverse sequence.", "quantifier": "all trees whose parent and child links agree", "why_tests_cant": "The successor computation climbs parent pointers, its correctness is a global statement about tree shape.", "anchors": ["src/utils/rbtree.c:rb_first", "src/utils/rbtree.c:rb_next", "src/utils/rbtree.c:rb_last", "src/utils/rbtree.c:rb_prev"]}
{"id": "C05", "title": "Destroying an ordered index releases every node exactly once and never touches a released node", "statement": "Destroying an index passes every element exactly once, in order, to the caller's release callback and never reads or writes an element after it was released; memory outside the index is untouched.", "quantifier": "all trees, all release callbacks that free the element they get", "why_tests_cant": "The routine destroys the tree while walking it and rewrites parent links on the fly; use-after-free would depend on shape and allocator behaviour.", "anchors": ["src/utils/rbtree.h:rb_destroy"]}
{"id": "C06", "title": "Doubly linked lists behave like sequences", "statement": "Appending, prepending, removing, replacing, moving, splicing and rotating entries of the intrusive circular list have exactly the effect of the corresponding sequence operation on the sequence seen by forward traversal, the backward traversal is always its reverse, and entries of other lists are untouched.", "quantifier": "all well-formed circular lists, all entries and all operations", "why_tests_cant": "Pointer surgery errors (stale prev/next) corrupt the list only for particular positions and neighbours.", "anchors": ["src/utils/list.h:__list_add", "src/utils/list.h:list_add", "src/utils/list.h:list_del", "src/utils/list.h:list_splice"]}
{"id": "C07", "title": "List sort is a stable sort", "statement": "Sorting a list with a consistent comparison yields a permutation of the input that is ordered by the comparison, with comparison-equal entries in their original relative order, for any list length.", "quantifier": "all lists of any length and all comparison functions that are total preorders", "why_tests_cant": "The bottom-up merge schedule depends on the bits of the element count; tests cover few lengths and no proof of stability.", "anchors": ["src/utils/list.c:list_sort", "src/utils/list.c:merge", "src/utils/list.c:merge_final"]}
{"id": "C08", "title": "Address to mapping lookup is exact", "statement": "After the memory map of a process has been read, looking up an address returns the mapping whose half-open range contains it, and reports not-found iff no mapping contains it.", "quantifier": "all lists of pairwise disjoint non-empty mappings in any order, all 64-bit addresses", "why_tests_cant": "Depends on the interplay of two different comparison functions over every possible map layout, including adjacent mappings and boundary addresses.", "anchors": ["src/task/vma.c:find_vma", "src/task/vma.c:insert_vma", "src/task/vma.c:__vma_rb_cmp", "src/task/vma.c:__find_vma_cmp"]}
{"id": "C09", "title": "The hole chosen for a new patch is free", "statement": "When the placement search returns a non-zero address for a requested size, the range of that size starting there overlaps no mapping of the process and does not wrap; if it returns zero no gap between consecutive mappings is large enough.", "quantifier": "all non-empty memory maps, all sizes, all base hints", "why_tests_cant": "A placement overlapping an existing mapping silently destroys process memory; the property ranges over all layouts.", "anchors": ["src/task/vma.c:find_vma_span_area"]}
{"id": "C10", "title": "Permission strings, protection bits and segment flags agree", "statement": "The protection computed from a mapping's permission string contains read/write/execute iff the corresponding letter is present, and converting protections to segment flags preserves exactly those three permissions.", "quantifier": "all permission strings and all protection words", "why_tests_cant": "The conversion swaps bit positions; it must hold for every input word.", "anchors": ["src/task/vma.c:vma_perms2prot", "src/task/vma.c:vma_prot2flags"]}
{"id": "C11", "title": "Patch mappings are recognised after re-opening the process", "statement": "Every file name generated for a patch of a process is classified as a patch mapping when the process is inspected again, and special kernel mappings, the executable and libc are never classified as patch mappings.", "quantifier": "all process ids, all six-character random suffixes, all mapping names", "why_tests_cant": "Classification is substring-based with an order-sensitive cascade; correctness must hold for every generated name.", "anchors": ["src/task/vma.c:get_vma_type", "src/patch/patch.c:__make_pid_ulpname"]}
{"id": "C12", "title": "Symbol lookup by name returns the first registered symbol of that name", "statement": "After any sequence of symbol registrations, looking up a name finds a symbol iff one with that name was registered; it returns the first registered one, and the list of extra symbols is exactly the later registered ones with that name and pairwise different addresses, in order of registration.", "quantifier": "all finite registration histories, all names", "why_tests_cant": "Relies on tree order, duplicate chains and registration order together; the resolved address of a patched function depends on it.", "anchors": ["src/task/symbol.c:find_task_sym", "src/task/symbol.c:link_task_sym", "src/task/symbol.c:__link_task_sym_name"]}
{"id": "C13", "title": "Symbol lookup by address is exact", "statement": "After any sequence of symbol registrations, looking up an address finds a symbol iff one with exactly that address was registered.", "quantifier": "all finite registration histories, all 64-bit addresses", "why_tests_cant": "The comparison truncates a 64-bit difference to int, so failures need addresses at least 2^31 apart (which is normal for PIE executables and shared libraries).", "anchors": ["src/task/symbol.c:find_task_addr", "src/task/symbol.c:__cmp_task_addr", "src/task/symbol.c:__link_task_sym_addr"]}
{"id": "C14", "title": "Releasing the symbol tables frees every registered symbol exactly once", "statement": "After any sequence of registrations, releasing the tables frees every symbol that is reachable from them exactly once and uses no symbol after it has been freed.", "quantifier": "all finite registration histories", "why_tests_cant": "Each symbol may sit in two trees and two duplicate chains with a shared reference count; double free or use-after-free depends on the history.", "anchors": ["src/task/symbol.c:free_task_syms", "src/task/symbol.c:free_task_sym", "src/task/symbol.c:__rb_free_task_sym_name"]}
{"id": "C15", "title": "x86-64 relocations store the psABI value for the target process", "statement": "When applying a relocation section succeeds, every relocated field holds S+A (64, 32, 32S) or S+A-P (PC32, PLT32, PC64) in the field's width, where P is the address of the field in the target process, independent of where the image is mapped in the patching tool, and all bytes outside the relocated fields are unchanged.", "quantifier": "all images, all host and target addresses, all relocation lists with non-overlapping fields", "why_tests_cant": "Address arithmetic mixes two address spaces modulo 2^64; tests only run at the addresses the loader happens to choose.", "anchors": ["src/arch/x86_64/patch.c:arch_apply_relocate_add"]}
{"id": "C16", "title": "x86-64 absolute 32-bit relocations never silently truncate", "statement": "A 32-bit unsigned or signed absolute relocation is accepted iff the 64-bit value is representable in the field with the corresponding extension, otherwise the whole patch is rejected.", "quantifier": "all symbol values and addends", "why_tests_cant": "Overflow only occurs for particular address layouts.", "anchors": ["src/arch/x86_64/patch.c:arch_apply_relocate_add"]}
{"id": "C17", "title": "x86-64 PC-relative 32-bit relocations never silently truncate", "statement": "A PC32/PLT32 relocation is accepted only if the displacement fits in a signed 32-bit field, so that the instruction really reaches the symbol.", "quantifier": "all symbol values, addends and target addresses", "why_tests_cant": "The distance between patch image and libraries depends on ASLR; failing layouts are rare and crash the patched process.", "anchors": ["src/arch/x86_64/patch.c:arch_apply_relocate_add"]}
{"id": "C18", "title": "x86-64 relocation refuses already relocated fields", "statement": "If a field to be relocated is not zero the relocation is refused with an error and that field keeps its value; relocations of unknown type are refused as well.", "quantifier": "all images and relocation lists", "why_tests_cant": "Protects against applying relocations twice; must hold for every content and position in the list.", "anchors": ["src/arch/x86_64/patch.c:arch_apply_relocate_add"]}
{"id": "C19", "title": "Generated x86-64 call/jump instructions reach their destination", "statement": "Executing the generated 5-byte call or jump at its address transfers control to the requested destination whenever the destination is within the signed 32-bit displacement of the end of the instruction.", "quantifier": "all instruction addresses and destinations modulo 2^64", "why_tests_cant": "Displacement arithmetic wraps modulo 2^64 and truncates to 32 bits; boundary distances are not reached by tests.", "anchors": ["src/arch/x86_64/insn.c:text_gen_insn", "src/arch/x86_64/patch.c:ulpatch_jmpq_replace"]}
{"id": "C20", "title": "The 16-byte jump entry transfers control to the replacement function (x86-64)", "statement": "Executing the 16 bytes installed at the start of a patched function, at any address, transfers control to the replacement function's address and changes no register other than the instruction pointer.", "quantifier": "all function addresses and all 64-bit replacement addresses", "why_tests_cant": "The opcode constant, its endianness and the slot offset must be right for every address; a test executes one pair.", "anchors": ["src/patch/patch.c:arch_jmp_table_jmp", "src/patch/patch.h:jmp_table_entry", "src/patch/patch.c:kick_target_process"]}
{"id": "C21", "title": "The 16-byte jump entry transfers control to the replacement function (aarch64)", "statement": "Executing the 16 bytes installed at the start of a patched function, at any 4-aligned address, transfers control to the replacement function's address, clobbering only the intra-procedure-call scratch register x17.", "quantifier": "all aligned function addresses and all 64-bit replacement addresses", "why_tests_cant": "Same as on x86-64; additionally it must not clobber argument registers.", "anchors": ["src/patch/patch.c:arch_jmp_table_jmp", "src/patch/patch.h:jmp_table_entry"]}
{"id": "C22", "title": "aarch64 immediate fields round-trip and leave the rest of the instruction alone", "statement": "Writing an immediate into an instruction and reading it back yields the immediate truncated to the field width for every supported field kind, and all bits outside the field are unchanged; the only exception is the reserved fault instruction, which is returned unchanged.", "quantifier": "all 32-bit instructions, all 64-bit immediates, all field kinds", "why_tests_cant": "2^96 inputs per field kind; split fields (ADR) are easy to get wrong in single bits.", "anchors": ["src/arch/aarch64/insn.c:aarch64_insn_encode_immediate", "src/arch/aarch64/insn.c:aarch64_insn_decode_immediate", "src/arch/aarch64/insn.c:aarch64_get_imm_shift_mask"]}
{"id": "C23", "title": "aarch64 immediate relocations detect overflow exactly", "statement": "An immediate relocation reports a range error iff the shifted value is not representable as a signed number of the field width; if it reports success, sign-extending and shifting the stored field gives back the relocated value up to the dropped low bits.", "quantifier": "all values, all shift/length pairs used, all instructions", "why_tests_cant": "The overflow test is bit trickery on 64-bit values; boundaries cannot be enumerated.", "anchors": ["src/arch/aarch64/patch.c:reloc_insn_imm"]}
{"id": "C24", "title": "aarch64 MOVW relocations build the requested 16-bit slice", "statement": "A MOVW relocation stores the selected 16-bit slice of the value (its complement together with the MOVN opcode for negative values in the signed forms), reports a range error iff higher bits are lost, and changes no other instruction bits.", "quantifier": "all values and instructions, all four slices, both forms", "why_tests_cant": "Signed/unsigned variants differ in opcode manipulation for negative values.", "anchors": ["src/arch/aarch64/patch.c:reloc_insn_movw"]}
{"id": "C25", "title": "aarch64 data relocations detect overflow exactly", "statement": "A 16- or 32-bit data relocation reports a range error iff the value is outside the unsigned (absolute) or signed (place-relative) range of the field; a 64-bit one never does; the stored field is the value truncated to the width.", "quantifier": "all values and widths", "why_tests_cant": "Boundary values at both ends of four ranges.", "anchors": ["src/arch/aarch64/patch.c:reloc_data"]}
{"id": "C26", "title": "aarch64 patches with overflowing relocations are rejected", "statement": "If any relocation that requires an overflow check overflows, applying the relocation section fails.", "quantifier": "all relocation lists", "why_tests_cant": "Depends on the order of relocations in the list: a flag is never re-initialised between entries.", "anchors": ["src/arch/aarch64/patch.c:arch_apply_relocate_add"]}
{"id": "C27", "title": "Generated aarch64 branches reach their destination", "statement": "A generated branch or branch-with-link at a 4-aligned address, executed there, reaches the destination whenever it is 4-aligned and within +-128 MiB; otherwise the reserved fault instruction is generated instead of a wrong branch.", "quantifier": "all instruction addresses and destinations", "why_tests_cant": "The source address parameter is narrower than an address; failures need addresses above 4 GiB.", "anchors": ["src/arch/aarch64/insn.c:aarch64_insn_gen_branch_imm", "src/arch/aarch64/insn.c:branch_imm_common"]}
{"id": "C28", "title": "Patch then unpatch restores the process", "statement": "If a patch is applied successfully and then, in a later session, removed successfully, every byte of the target that existed before the patch has its old value and the patch mapping is gone.", "quantifier": "all target memories, all patch images, all target functions and placements", "why_tests_cant": "Must hold for every memory content and layout, including functions at mapping boundaries.", "anchors": ["src/patch/patch.c:init_patch", "src/patch/patch.c:delete_patch", "src/patch/patch.c:kick_target_process"]}
{"id": "C29", "title": "Stacked patches unwind in LIFO order", "statement": "For any sequence of patch and unpatch sessions, each unpatch removes exactly the most recently applied remaining patch, and after removing all of them the original memory is restored, even if several patches target the same or overlapping functions.", "quantifier": "all finite histories of patch/unpatch sessions", "why_tests_cant": "Correctness depends on ids being read back from the target across sessions; histories are unbounded.", "anchors": ["src/patch/patch.c:delete_patch", "src/patch/patch.c:solve_patch_symbols", "src/task/patch.c:vma_load_ulp"]}
{"id": "C30", "title": "Applying a patch touches only the image mapping and 16 bytes of the function", "statement": "Applying a patch, successfully or not, modifies no byte of target memory other than the new patch mapping and the first 16 bytes of the target function; on failure before the jump is installed the function bytes are unchanged.", "quantifier": "all executions, including any failing system call at any point", "why_tests_cant": "Requires fault injection at every system call and comparing all memory.", "anchors": ["src/patch/patch.c:init_patch", "src/patch/patch.c:kick_target_process"]}
{"id": "C31", "title": "The original code is saved in the target before it is overwritten", "statement": "At every point of the patching procedure (so for a crash of the tool at any point), if the function's first bytes differ from the original then the patch mapping already contains the original bytes and the address they belong to, so a later session can restore them.", "quantifier": "all crash points, all memories and images", "why_tests_cant": "Crash points cannot be enumerated by tests; recovery must be possible from each of them.", "anchors": ["src/patch/patch.c:kick_target_process", "src/patch/patch.c:solve_patch_symbols"]}
{"id": "C32", "title": "Patch identifiers are unique and increasing over sessions", "statement": "Each patch applied in a fresh session gets an identifier larger than that of every patch currently present in the target, so identifiers of simultaneously present patches are pairwise different and ordered by time of application.", "quantifier": "all finite histories of sessions, with fewer than 2^32 patches", "why_tests_cant": "Unbounded histories, and identifiers persist only inside the target's memory.", "anchors": ["src/patch/patch.c:solve_patch_symbols", "src/task/patch.c:vma_load_ulp"]}
{"id": "C33", "title": "The same patch is not applied twice", "statement": "Applying a patch whose build id equals that of a patch already present in the target is refused and leaves the target's memory unchanged.", "quantifier": "all sets of present patches, all patch files", "why_tests_cant": "Must hold for all numbers and orders of patches present.", "anchors": ["src/patch/patch.c:load_patch", "src/patch/patch.c:setup_load_info"]}
{"id": "C34", "title": "Applying and removing patches in one session behaves like in separate sessions", "statement": "Within one opened session, removing the patch that was just applied succeeds, and applying the same patch twice is refused, exactly as if the process had been re-opened in between.", "quantifier": "all sessions", "why_tests_cant": "Needs reasoning about which in-memory bookkeeping is refreshed by which operation.", "anchors": ["src/patch/patch.c:init_patch", "src/patch/patch.c:delete_patch", "src/task/patch.c:update_task_vmas_ulp"]}
{"id": "C35", "title": "A malformed patch file is never accepted by the file loader", "statement": "Loading a patch file succeeds only if the file exists, is at least as large as an ELF header, has the ELF magic and a section header table lying inside the file; in all other cases an error is returned.", "quantifier": "all file contents", "why_tests_cant": "Adversarial or truncated files; error-path return codes are rarely tested.", "anchors": ["src/patch/patch.c:alloc_patch_file", "src/patch/patch.c:__chk_load_info_len"]}
{"id": "C36", "title": "Section data of an accepted patch lies inside the patch image", "statement": "If the section headers of a patch are accepted, every section occupying file space lies completely inside the image and its address is its file offset relative to the image's address in the target; no section without file content and non-zero size is accepted.", "quantifier": "all section header tables and image sizes", "why_tests_cant": "Arithmetic wrap-around in the bounds check needs hostile 64-bit values.", "anchors": ["src/patch/patch.c:rewrite_section_headers"]}
{"id": "C37", "title": "Section lookup by name is exact", "statement": "Looking up a section by name returns the first section with that name, and the error value 0 iff no section other than the null section has it (given that the null section is unnamed).", "quantifier": "all section tables and names", "why_tests_cant": "All tables and names, including duplicates and the empty name.", "anchors": ["src/patch/patch.c:find_sec"]}
{"id": "C38", "title": "A patch with unresolved strong symbols is rejected", "statement": "If symbol resolution of a patch succeeds, every undefined non-weak symbol got a non-zero address found in the target and every defined symbol was moved to its section's address in the target; common symbols are rejected.", "quantifier": "all symbol tables and all target symbol sets", "why_tests_cant": "The verdict is accumulated over the whole table; an error in the middle can be masked by later entries.", "anchors": ["src/patch/patch.c:simplify_symbols", "src/patch/patch.c:resolve_symbol"]}
{"id": "C39", "title": "The patch metadata strings are parsed as written", "statement": "Parsing the metadata string table written by the patch macro returns exactly the source and destination function names given to the macro, and a table without the magic is refused.", "quantifier": "all function names without NUL characters, all string tables", "why_tests_cant": "All names of all lengths.", "anchors": ["src/patch/patch.c:parse_ulpatch_strtab", "src/patch/meta.h:ULPATCH_INFO"]}
{"id": "C40", "title": "The patch metadata record written by the macro is read back field by field", "statement": "The packed metadata record has the layout emitted by the patch macro: reading each field from the emitted bytes yields the emitted value, writing one field changes no other, and the record's backup area is exactly as large as the jump entry.", "quantifier": "all field values", "why_tests_cant": "Layout agreement between hand-written assembly and a packed C structure for every value.", "anchors": ["src/patch/meta.h:ULPATCH_INFO", "src/patch/meta.h:ulpatch_info", "src/init.c:__check_and_exit"]}
{"id": "C41", "title": "Remote system calls leave the target's code unchanged", "statement": "After a remote system call returns, successfully or not, the code bytes temporarily replaced in the target hold their previous values, provided the memory accesses themselves succeed and the system call did not write there.", "quantifier": "all failure points of the ptrace operations, all register states, all signal sequences", "why_tests_cant": "Requires fault injection into every ptrace call and wait status.", "anchors": ["src/task/syscall.c:task_syscall"]}
{"id": "C42", "title": "Remote system calls leave the target's registers unchanged", "statement": "After a remote system call returns, successfully or not, the target's registers have the values they had before.", "quantifier": "all failure points, all register states", "why_tests_cant": "Requires fault injection; a failure after the registers were set is rare.", "anchors": ["src/task/syscall.c:task_syscall", "src/task/syscall.c:copy_regs"]}
{"id": "C43", "title": "Remote system calls pass number and arguments in the right registers", "statement": "The system call executed in the target has exactly the requested number and six arguments, and its result is what is returned.", "quantifier": "all numbers and argument values, all previous register states", "why_tests_cant": "Register assignment must be right for all six positions and every value.", "anchors": ["src/task/syscall.c:task_syscall", "src/task/syscall.c:copy_regs", "src/arch/x86_64/regs.h:SYSCALL_REGS_PREPARE", "src/arch/aarch64/regs.h:SYSCALL_REGS_PREPARE"]}
{"id": "C44", "title": "Standard descriptors of the target are never closed or truncated", "statement": "Closing or truncating a remote descriptor never issues a system call for descriptors 0, 1 and 2 and returns an error for them.", "quantifier": "all descriptor numbers, all target states", "why_tests_cant": "A universally quantified safety guard.", "anchors": ["src/task/syscall.c:task_close", "src/task/syscall.c:task_ftruncate"]}
{"id": "C45", "title": "Failing remote system calls are reported to the caller", "statement": "If the remote map, unmap, protect, truncate or allocation fails in the target (the system call returns an error code) or cannot be performed, the caller receives an error value rather than a value it treats as success.", "quantifier": "all error codes and failure points", "why_tests_cant": "Needs failing system calls inside the target.", "anchors": ["src/task/syscall.c:task_mmap", "src/task/syscall.c:task_munmap", "src/task/syscall.c:task_ftruncate", "src/task/syscall.c:task_malloc", "src/patch/patch.c:create_mmap_vma_file"]}
{"id": "C46", "title": "Byte strings round-trip through their textual form", "statement": "Printing a byte sequence as hexadecimal text and parsing the text yields the same bytes, for every byte sequence that fits the buffer and every separator that is not part of the number syntax.", "quantifier": "all byte sequences, all admissible separators, all buffer sizes", "why_tests_cant": "256^n inputs; separator and buffer-size boundaries.", "anchors": ["src/utils/string.c:mem2strbytes", "src/utils/string.c:strbytes2mem", "src/utils/string.c:strbytes2mem_check"]}
{"id": "C47", "title": "Parsing byte strings never writes outside the destination buffer", "statement": "Parsing a textual byte string writes at most as many bytes as the destination can hold.", "quantifier": "all input strings and buffer sizes", "why_tests_cant": "Memory safety for every input string.", "anchors": ["src/utils/string.c:strbytes2mem"]}
{"id": "C48", "title": "Comma lists are split into their non-empty items in order", "statement": "Splitting a comma separated string yields exactly the non-empty items in order of appearance.", "quantifier": "all strings", "why_tests_cant": "All strings including leading, trailing and repeated commas.", "anchors": ["src/utils/string.c:parse_strstr"]}
{"id": "C49", "title": "Build ids are printed faithfully and within the buffer", "statement": "The printed build id has two hexadecimal digits per byte, different build ids give different strings, and nothing is written when the buffer is too small.", "quantifier": "all byte strings and buffer sizes", "why_tests_cant": "Duplicate detection relies on injectivity over all ids.", "anchors": ["src/elf/note.c:elf_strbuildid", "src/elf/symbol-bfd.c:bfd_strbid"]}
{"id": "C50", "title": "Sizes and addresses given by the user are parsed to the number they denote", "statement": "Parsing the decimal or hexadecimal text of a number below 2^64 gives that number, a KB, MB or GB suffix multiplies a decimal number by the corresponding power of 1024 modulo 2^64, and addresses accept decimal and 0x-prefixed hexadecimal text.", "quantifier": "all numbers below 2^64 and all suffixes", "why_tests_cant": "All numbers; suffix detection is substring-based.", "anchors": ["src/utils/string.c:str2size", "src/utils/string.c:str2addr"]}
{"id": "C51", "title": "Alignment macros round to multiples", "statement": "Rounding up (down) to a power of two yields the least multiple not below (greatest multiple not above) the value, for every value for which the result is representable; page rounding uses the page size.", "quantifier": "all 64-bit values and all powers of two", "why_tests_cant": "All values and alignments, wrap-around boundary.", "anchors": ["src/utils/macros.h:ROUND_UP", "src/utils/macros.h:ROUND_DOWN", "src/utils/macros.h:ALIGN", "src/utils/macros.h:PAGE_UP", "src/utils/macros.h:PAGE_DOWN"]}
{"id": "C52", "title": "ELF header validation is exact", "statement": "A header is accepted iff it has the ELF magic, is 64-bit little-endian of the current version and has a type and a machine.", "quantifier": "all 64-byte headers", "why_tests_cant": "All header contents.", "anchors": ["src/elf/ehdr.c:ehdr_ok", "src/elf/ehdr.c:ehdr_magic_ok"]}
{"id": "C53", "title": "ELF symbol index lookup distinguishes kinds and returns the first symbol", "statement": "After registering any sequence of ELF symbols, looking up a name and kind (defined, undefined, extern) returns the first registered symbol of that name and kind iff there is one.", "quantifier": "all registration sequences and lookups", "why_tests_cant": "The comparison is a two-level order whose direction flips between levels; histories are unbounded.", "anchors": ["src/elf/symbol.c:cmp_symbol_name", "src/elf/symbol.c:link_symbol", "src/elf/symbol.c:find_symbol"]}
{"id": "C54", "title": "Symbol name trimming stays inside its buffer", "statement": "Stripping the version suffix of a symbol name returns the part before the first '@' and writes only inside the given buffer.", "quantifier": "all names and buffer sizes", "why_tests_cant": "Boundary lengths.", "anchors": ["src/elf/symbol-bfd.c:asymbol_pure_name"]}
{"id": "C55", "title": "Useless symbols are filtered without losing or reordering the others", "statement": "Filtering the symbol vector keeps exactly the symbols that have a name and a non-zero address in a section of the file and are not debugging or section symbols (the linkage table names .plt and .got excepted), in their original order, and changes nothing behind the vector.", "quantifier": "all symbol vectors", "why_tests_cant": "In-place compaction, all patterns of kept and dropped entries.", "anchors": ["src/elf/symbol-bfd.c:remove_useless_symbols"]}
{"id": "C56", "title": "Re-opening an ELF file that is in use is safe", "statement": "Opening an ELF file that is already open gives a usable handle that stays valid until every opener has closed it, and closing releases each owned resource exactly once.", "quantifier": "all open/close histories", "why_tests_cant": "Histories of opens and closes by different users.", "anchors": ["src/elf/open.c:elf_file_open", "src/elf/open.c:elf_file_close"]}
{"id": "C57", "title": "Auxiliary vector parsing reports exactly what the kernel provided", "statement": "Reading the auxiliary vector returns for each of the recorded entries the last value given before the terminator, and fails iff one of the required entries is missing or zero.", "quantifier": "all auxiliary vectors", "why_tests_cant": "All vectors, including repeated and unknown entries.", "anchors": ["src/task/auxv.c:load_task_auxv"]}
{"id": "C58", "title": "Callbacks run once each in registration order", "statement": "Launching a callback chain runs each registered callback exactly once in order of registration with its own argument; destroying the chain empties it.", "quantifier": "all chains", "why_tests_cant": "All chain lengths and orders.", "anchors": ["src/utils/callback.c:insert_callback", "src/utils/callback.c:callback_launch_chain", "src/utils/callback.c:destroy_callback_chain"]}
{"id": "C59", "title": "Log level names and filtering", "statement": "Each level name, in any letter case, denotes its level, anything else is an error; a message is emitted iff its level is at most the configured level.", "quantifier": "all strings, all levels", "why_tests_cant": "All strings in all case combinations.", "anchors": ["src/utils/log.c:str2loglevel", "src/utils/log.c:ulp_log"]}
{"id": "C60", "title": "Validated code modification never overwrites unexpected code (aarch64)", "statement": "When validation is requested, an instruction in the target is overwritten only if it currently equals the expected one; otherwise the target is unchanged and an error is returned; unaligned addresses are refused.", "quantifier": "all addresses, memories, expected and new instructions, read/write failures", "why_tests_cant": "All memory contents and failure points.", "anchors": ["src/arch/aarch64/ftrace.c:ftrace_modify_code", "src/arch/aarch64/insn.c:aarch64_insn_write"]}
{"id": "C61", "title": "The x86-64 tracing trampoline is transparent", "statement": "Calling the tracing entry trampoline from any point of a program, with any stack alignment, returns to the caller with all integer argument registers, the return-value register, the callee-saved registers and the stack pointer unchanged and calls the hook with the address of the parent return slot, the call site and the saved argument block on an aligned stack, provided the hook obeys the calling convention.", "quantifier": "all register and stack contents, all stack alignments, all convention-respecting hooks", "why_tests_cant": "A single wrong offset corrupts one argument register in rare call sites; tests check few signatures.", "anchors": ["src/arch/x86_64/mcount.S:_ftrace_mcount", "src/arch/x86_64/mcount.h:mcount_regs"]}
{"id": "C62", "title": "The x86-64 return trampoline preserves the return value", "statement": "The tracing return trampoline preserves the integer return registers, the first floating point return register, the callee-saved registers and the stack pointer and continues at the address delivered by the hook.", "quantifier": "all register and stack contents, all stack alignments, all convention-respecting hooks", "why_tests_cant": "Same as for the entry trampoline.", "anchors": ["src/arch/x86_64/mcount.S:_ftrace_mcount_return"]}
{"id": "C63", "title": "The aarch64 tracing trampolines are transparent", "statement": "The aarch64 entry and return trampolines preserve the integer argument registers and the indirect result register, respectively the integer return registers and the first floating point return register, the callee-saved registers, the frame pointer and the stack pointer, and continue at the caller, respectively at the address delivered by the hook.", "quantifier": "all register and stack contents, all convention-respecting hooks", "why_tests_cant": "Same as for x86-64.", "anchors": ["src/arch/aarch64/mcount.S:_ftrace_mcount", "src/arch/aarch64/mcount.S:_ftrace_mcount_return"]}
{"id": "C64", "title": "Mapping a file at a user-given address never overlaps an existing mapping", "statement": "The command that maps a file into a process at an explicit address refuses the request iff the requested range overlaps an existing mapping.", "quantifier": "all memory maps, addresses and lengths", "why_tests_cant": "Needs a mapping strictly inside the requested range.", "anchors": ["src/ultask.c:mmap_a_file"]}
{"id": "C65", "title": "Changing protection of a region inside one mapping is accepted", "statement": "The command that changes the protection of a region accepts exactly the regions that lie within mappings of the process.", "quantifier": "all memory maps, addresses and lengths", "why_tests_cant": "Boundary case: region ending exactly at the end of a mapping.", "anchors": ["src/ultask.c:mprotect_a_region"]}
{"id": "C66", "title": "The private directory of a patched process is kept while it is patched", "statement": "While a mapping of a patch is present, closing a process handle changes no file; without one it removes the process's private directory, with what opening put there, unless other files are in it. No other file is ever removed or changed, so files backing installed patches stay.", "quantifier": "all sets of mappings", "why_tests_cant": "All combinations of patches and mappings.", "anchors": ["src/task/core.c:close_task", "src/task/core.c:__check_and_free_task_proc"]}
{"id": "C67", "title": "File copy never overwrites and copies exactly", "statement": "Copying a file fails without changing anything if the destination exists or the source does not; otherwise the destination has the content of the source.", "quantifier": "all file systems, contents and sizes, all short reads", "why_tests_cant": "All contents and all ways in which reads and writes are split.", "anchors": ["src/utils/file.c:fcopy", "src/utils/file.c:_file_copy"]}
{"id": "C68", "title": "Load bias makes symbol addresses right", "statement": "For an ELF object mapped by the loader, the computed load address plus a symbol's link-time value is the symbol's run-time address, for position-independent and fixed-address objects.", "quantifier": "all segment layouts and load addresses", "why_tests_cant": "All layouts, page-unaligned segments.", "anchors": ["src/task/core.c:vma_peek_elf_hdrs", "src/task/symbol.c:task_load_vma_elf_syms"]}
{"id": "C69", "title": "aarch64 relocation stores the value the ELF ABI asks for", "statement": "After relocation succeeds, every relocated field of the patch holds the AAELF64 value for its address in the target process, and no other byte of the image changed.", "quantifier": "all relocation lists, symbol values, addends and image placements, all supported data and instruction types", "why_tests_cant": "Tool and target map the image at different addresses chosen at run time; tests see one pair.", "anchors": ["src/arch/aarch64/patch.c:arch_apply_relocate_add", "src/arch/aarch64/patch.c:do_reloc"]}
{"id": "C70", "title": "A destroyed ordered index is empty", "statement": "After an index has been destroyed it is an empty index: it can be searched (finding nothing), walked and filled again.", "quantifier": "all trees", "why_tests_cant": "A stale root pointer is only noticed if the index is used again and the allocator has reused the memory.", "anchors": ["src/utils/rbtree.h:rb_destroy"]}
{"id": "C71", "title": "Replacing an element of the ordered index in place", "statement": "Replacing an element of an index by a fresh element that compares alike puts the new element at the place of the old one, keeps all other elements and their order and keeps the tree balanced.", "quantifier": "all trees, all positions of the replaced element (root, left child, right child, with and without children)", "why_tests_cant": "The parent's child pointer and the children's parent pointers have to be changed consistently for every shape.", "anchors": ["src/utils/rbtree.c:rb_replace_node"]}
{"id": "C72", "title": "Refreshing the memory map gives the current map", "statement": "After the memory map of an attached process has been refreshed, looking up an address answers according to the current map of the process.", "quantifier": "all earlier and current memory maps", "why_tests_cant": "Requires all ways a map can change between two readings (unmapped, grown, shrunk, added).", "anchors": ["src/task/vma.c:read_task_vmas", "src/task/patch.c:update_task_vmas_ulp"]}
{"id": "C73", "title": "Mappings of one object share a leader", "statement": "After reading a memory map, every mapping in a run of consecutive mappings with the same name has the first mapping of that run as its leader.", "quantifier": "all memory maps and names, runs of any length", "why_tests_cant": "Runs of arbitrary length and neighbouring runs.", "anchors": ["src/task/vma.c:insert_vma", "src/task/vma.c:read_task_vmas"]}
{"id": "C74", "title": "Iterating a memory map", "statement": "Iterating over the mappings of a process visits every mapping exactly once, by ascending address.", "quantifier": "all memory maps in any order of insertion", "why_tests_cant": "All tree shapes.", "anchors": ["src/task/vma.c:next_vma", "src/task/vma.h:task_for_each_vma"]}
{"id": "C75", "title": "Files of the user are not taken for patches", "statement": "A mapping whose name was not generated for a patch of this process is not classified as a patch mapping.", "quantifier": "all names, process ids and executables", "why_tests_cant": "All names; a false positive makes the tool interpret foreign memory as a patch.", "anchors": ["src/task/vma.c:get_vma_type"]}
{"id": "C76", "title": "Every registered symbol is released with the tables", "statement": "After any sequence of registrations, releasing the symbol tables leaves no registered symbol allocated.", "quantifier": "all finite registration histories", "why_tests_cant": "Symbols that are refused by both tables are reachable from nowhere; leaks depend on the whole history.", "anchors": ["src/task/symbol.c:free_task_syms", "src/task/symbol.c:link_task_sym", "src/task/symbol.c:task_load_vma_elf_syms"]}
{"id": "C77", "title": "The target is never left stopped by mapping or unmapping a patch", "statement": "After the patch file has been mapped into or unmapped from the target, successfully or not, the target is no longer traced, provided the detach request itself succeeds.", "quantifier": "all failure points", "why_tests_cant": "Needs fault injection into every remote call; a target left attached stays stopped for ever.", "anchors": ["src/patch/patch.c:create_mmap_vma_file", "src/patch/patch.c:delete_mmap_vma_file", "src/task/core.c:task_attach", "src/task/core.c:task_detach"]}
{"id": "C78", "title": "Code that could not be read is not overwritten", "statement": "If the original code of the target cannot be read before a remote system call, the call does not change the target's memory.", "quantifier": "all failure points", "why_tests_cant": "Needs a failing read of the target's memory.", "anchors": ["src/task/syscall.c:task_syscall", "src/task/memcpy.c:memcpy_from_task"]}
{"id": "C79", "title": "Splitting a comma list returns the number of items", "statement": "The value returned by the comma list splitter is the number of items it added to the list, as its comment promises.", "quantifier": "all strings", "why_tests_cant": "Callers ignore the value, so no test would notice that it is always zero.", "anchors": ["src/utils/string.c:273-308"]}
{"id": "C80", "title": "Printing a byte sequence never writes outside the text buffer", "statement": "Printing bytes as hexadecimal text changes nothing outside the given buffer, including the terminating NUL that each intermediate print adds, and refuses exactly the empty sequence and buffers that are too small.", "quantifier": "all byte sequences, separators and buffer sizes", "why_tests_cant": "An overflow by one byte is invisible to tests that use generously sized buffers.", "anchors": ["src/utils/string.c:205-247"]}
{"id": "C81", "title": "A negative buffer length is refused by the build id printer", "statement": "The build id printer refuses every buffer length that cannot hold the text, negative lengths included.", "quantifier": "all int buffer lengths, all build ids", "why_tests_cant": "The check mixes signed and unsigned operands; tests pass sizeof values only.", "anchors": ["src/elf/symbol-bfd.c:509-525"]}
{"id": "C82", "title": "A malformed patch file cannot make the tool leave the patch image", "statement": "For every file content, analysing a patch file (section lookup, metadata, build id, symbol table) reads only bytes inside the loaded file.", "quantifier": "all file contents", "why_tests_cant": "Only specially crafted headers leave the image; fuzzing samples a few of them and usually does not crash.", "anchors": ["src/patch/patch.c:setup_load_info", "src/patch/patch.c:find_sec"]}
{"id": "C83", "title": "Every relocation section of the patch is applied exactly once and in order", "statement": "If relocating a patch succeeds, exactly the RELA sections that refer to an allocated section have been applied, each once, in table order and without error, and there is no REL section for an allocated one; if it fails, the sections before the failing one were applied and the failing one is a REL section or reported the error returned.", "quantifier": "all section tables, all behaviours of the per-section relocation", "why_tests_cant": "Tests use patches with one or two relocation sections and no failures.", "anchors": ["src/patch/patch.c:apply_relocations"]}
{"id": "C84", "title": "The whole patch file is loaded", "statement": "If a patch file is loaded, the image has the size of the file and holds its bytes, whatever the size of the file.", "quantifier": "all files", "why_tests_cant": "Files of 2 GiB or more are never part of a test suite.", "anchors": ["src/patch/patch.c:alloc_patch_file", "src/utils/file.c:fsize"]}
{"id": "C85", "title": "A successful patch redirects the function it names to the function in the patch", "statement": "If symbol solving succeeds, the metadata record holds the address of the destination function in the target, the address of the named source function inside the patch image, the next identifier and the time, and nothing else in the image changed; if it fails nothing changed.", "quantifier": "all symbol tables, target symbol sets and metadata", "why_tests_cant": "Tests use one well-formed patch; duplicates and undefined symbols of the same name are not tried.", "anchors": ["src/patch/patch.c:solve_patch_symbols"]}
{"id": "C86", "title": "Relocating an x86-64 patch writes only inside the patch image", "statement": "Whatever the relocation entries say, applying them changes no byte of the tool's memory outside the patch image.", "quantifier": "all images and relocation tables", "why_tests_cant": "Requires relocation entries no compiler emits.", "anchors": ["src/arch/x86_64/patch.c:arch_apply_relocate_add"]}
{"id": "C87", "title": "Every accepted x86-64 relocation is applied as the psABI prescribes", "statement": "If relocation succeeds, every non-empty entry has the effect the x86-64 psABI prescribes for its type; types the tool cannot handle are refused.", "quantifier": "all images, relocation tables and types", "why_tests_cant": "The types concerned only occur in patches using thread-local or GOT-addressed data, and the wrong value is only noticed when that code runs.", "anchors": ["src/arch/x86_64/patch.c:arch_apply_relocate_add"]}
{"id": "C88", "title": "A failed patch attempt leaves the function's code as it was", "statement": "If applying a patch reports an error, the first bytes of the function to be replaced have the values they had before the attempt, whichever step failed.", "quantifier": "all patch files, all sessions, all failures of system calls including short writes", "why_tests_cant": "A test would have to make the kernel cut one particular write short; the patcher's error path is taken after the write has happened.", "anchors": ["src/patch/patch.c:859-917", "src/patch/patch.c:976-1037"]}
{"id": "C89", "title": "If the tool dies while applying a patch, a later unpatch leaves the function intact", "statement": "If the patching procedure is interrupted at any point, then a later session's unpatch either refuses or leaves the function's code with the values it had before the interrupted attempt.", "quantifier": "all interruption points, all memories and images", "why_tests_cant": "The window between two stores into the mapped image cannot be hit by a unit test; the damage appears only in a later run.", "anchors": ["src/patch/patch.c:807-917", "src/patch/patch.c:1040-1091"]}
{"id": "C90", "title": "Symbol address lookup in an object file", "statement": "For any object file whose symbol names have fewer than 256 bytes before their version suffix, looking up a name in one of the classes (linkage table, code, data) returns the address of the first symbol of that class, in the order symbol table (dynamic symbols if it is empty), then synthetic symbols, whose name without version suffix is the given one, and 0 iff there is none.", "quantifier": "all symbol tables, dynamic symbol tables and synthetic symbols, all names and classes", "why_tests_cant": "tests look up a handful of symbols of one binary", "anchors": ["src/elf/symbol-bfd.c:link_bfd_sym", "src/elf/symbol-bfd.c:bfd_elf_plt_sym_addr", "src/elf/symbol-bfd.c:file_load"]}
{"id": "C91", "title": "Any object file can be opened for its symbols", "statement": "Loading the symbols of any well-formed object file terminates without a memory error, whatever the names of its symbols.", "quantifier": "all symbol tables", "why_tests_cant": "a symbol name of the critical length does not occur in test binaries", "anchors": ["src/elf/symbol-bfd.c:asymbol_pure_name", "src/elf/symbol-bfd.c:alloc_bfd_sym"]}
{"id": "C92", "title": "A plain name denotes the default version of a versioned symbol", "statement": "When a library provides several versions of a symbol, looking up the plain name gives the address of the default version, as the dynamic linker does for new references.", "quantifier": "all symbol tables with several versions of a symbol", "why_tests_cant": "needs a library with old versions listed before the default one", "anchors": ["src/elf/symbol-bfd.c:asymbol_pure_name", "src/elf/symbol-bfd.c:link_bfd_sym"]}
{"id": "C93", "title": "Statically linked programs can be examined", "statement": "The auxiliary vector of any running program is accepted, also that of a statically linked program, for which the kernel reports no interpreter (AT_BASE is 0).", "quantifier": "all auxiliary vectors the kernel can provide", "why_tests_cant": "the test programs are dynamically linked", "anchors": ["src/task/auxv.c:load_task_auxv"]}
{"id": "C94", "title": "Reading the auxiliary vector terminates", "statement": "Reading the auxiliary vector of a process terminates whatever the reads return, also if they fail.", "quantifier": "all sequences of read results", "why_tests_cant": "needs read failures in the middle of the file", "anchors": ["src/task/auxv.c:load_task_auxv"]}
{"id": "C95", "title": "The log level option understands exactly the documented levels", "statement": "The log level option accepts exactly the documented numbers 0 to 7 and the documented names and selects that level; everything else is refused.", "quantifier": "all option arguments", "why_tests_cant": "tests try a few arguments", "anchors": ["src/args-common.c:COMMON_GETOPT_CASES", "src/utils/log.c:str2loglevel"]}
{"id": "C96", "title": "Floating point arguments survive tracing", "statement": "A traced function receives its floating point arguments unchanged for every tracing hook that obeys the calling convention.", "quantifier": "all register contents and all conforming hooks, both architectures", "why_tests_cant": "depends on which vector registers the compiled hook happens to use", "anchors": ["src/arch/x86_64/mcount.S:_ftrace_mcount", "src/arch/aarch64/mcount.S:_ftrace_mcount"]}
{"id": "C97", "title": "Floating point results survive tracing", "statement": "The caller of a traced function receives all floating point return registers unchanged (also the second one, used for complex numbers and pairs) for every tracing hook that obeys the calling convention.", "quantifier": "all register contents and all conforming hooks, both architectures", "why_tests_cant": "depends on which vector registers the compiled hook happens to use", "anchors": ["src/arch/x86_64/mcount.S:_ftrace_mcount_return", "src/arch/aarch64/mcount.S:_ftrace_mcount_return"]}
{"id": "C98", "title": "Remote operations ask the kernel for what they promise", "statement": "Every remote operation (allocating, mapping, unmapping, protecting and synchronising memory, opening, closing and truncating files) makes the target enter the kernel with exactly the system call and arguments of that operation on its architecture: memory is allocated as a private anonymous readable and writable mapping, the path of an open is placed in memory allocated for it in the target and given back afterwards. The kernel's answer is the result.", "quantifier": "all kernels, target memories, arguments; x86_64 and aarch64", "why_tests_cant": "a test can only observe one kernel's behaviour; a wrong flag (shared instead of private) usually has no visible effect", "anchors": ["src/task/syscall.c:task_mmap", "src/task/syscall.c:task_malloc", "src/task/syscall.c:task_open"]}
{"id": "C99", "title": "Every v counts for the verbosity", "statement": "The verbosity is the number of times the letter v was given on the command line, in one option (-vvv) or in several (-v -v).", "quantifier": "all sequences of verbosity options", "why_tests_cant": "combinations of options are unbounded", "anchors": ["src/utils/string.c:str2verbose", "src/args-common.c:COMMON_GETOPT_CASES"]}
{"id": "C100", "title": "The map command reports failure when the mapping was refused", "statement": "If the command that maps a file into a process reports success, the file has been mapped at the requested address.", "quantifier": "all processes, maps, kernels' answers and files", "why_tests_cant": "Needs the kernel to refuse exactly the mapping request after the earlier ones succeeded.", "anchors": ["src/ultask.c:mmap_a_file"]}
{"id": "C101", "title": "The unmap command unmaps exactly the mapping asked for", "statement": "The command that unmaps the mapping at an address unmaps exactly that mapping, refuses when there is none, and reports a refusal by the kernel.", "quantifier": "all memory maps, addresses, file sizes and kernels' answers", "why_tests_cant": "Depends on the size of the backing file relative to the mapping.", "anchors": ["src/ultask.c:munmap_an_vma"]}
{"id": "C102", "title": "The jump command redirects exactly one place", "statement": "After the command that redirects one address to another succeeds, executing at the first address continues at the second with all other registers (but the scratch register) unchanged, and no byte outside the 16 bytes of the entry has changed; when either address is not mapped nothing changes and an error is reported.", "quantifier": "all processes, memory maps and addresses, both architectures", "why_tests_cant": "All code contents and addresses; instruction semantics.", "anchors": ["src/ultask.c:run_jmp"]}
{"id": "C103", "title": "A dump is the memory or an error", "statement": "If dumping an address range or a mapping of a process to a file succeeds, the file holds exactly the bytes of the process at that range; otherwise an error is reported. The process is never changed.", "quantifier": "all ranges, memory contents, previous file contents, read and write failures", "why_tests_cant": "Needs failing reads in the middle and pre-existing longer files.", "anchors": ["src/task/memcpy.c:dump_task_addr_to_file", "src/task/memcpy.c:dump_task_vma_to_file"]}
{"id": "C104", "title": "Reading a string yields the string, or a prefix of limited length", "statement": "Reading a NUL-terminated string of a process yields that string and writes nothing beyond its end; longer ones are cut off at the limit.", "quantifier": "all strings, addresses and read failures", "why_tests_cant": "All lengths and failures in the middle of a string.", "anchors": ["src/task/memcpy.c:strcpy_from_task"]}
{"id": "C105", "title": "The exit status of the task tool tells whether a command failed", "statement": "If any of the commands given to the task tool failed, its exit status is not success.", "quantifier": "all combinations of commands and all failures", "why_tests_cant": "All combinations of commands and failures.", "anchors": ["src/ultask.c:ultask"]}
{"id": "C106", "title": "Removing a directory tree removes exactly that tree", "statement": "Recursive removal of a path removes everything at and below that path and nothing else.", "quantifier": "all file systems and paths", "why_tests_cant": "All shapes of trees, including symbolic links that lead out of them.", "anchors": ["src/utils/file.c:fremove_recursive"]}
{"id": "C107", "title": "Loading a file into a buffer stays within the buffer and the file", "statement": "The reported size of a file is its size, and loading a file into a buffer delivers its first bytes, as many as fit, and never writes more.", "quantifier": "all file sizes, buffer sizes and read failures", "why_tests_cant": "Needs files of more than 2 GiB.", "anchors": ["src/utils/file.c:fsize", "src/utils/file.c:fmemcpy"]}
{"id": "C108", "title": "Creating a file never changes an existing one", "statement": "Creating a file of a given size leaves existing files unchanged, reports success iff afterwards there is a regular file, and a new file has the given size.", "quantifier": "all file systems, sizes and write failures", "why_tests_cant": "All kinds of existing files and all failing writes.", "anchors": ["src/utils/file.c:ftouch"]}
{"id": "C109", "title": "Tracing leaves the rest of the process alone", "statement": "Asking the tracing tool to trace a function either fails with an error and leaves the target with the patches it had, or succeeds; asking it to stop removes the trace patch and nothing else; patches installed by the user before are never removed by the tracing tool.", "quantifier": "all targets, patches already installed, outcomes of each step", "why_tests_cant": "Depends on which step fails and on what was patched before.", "anchors": ["src/ulftrace.c:ulftrace"]}
{"id": "C110", "title": "The object named on the command line is the one used", "statement": "When a patch object file is named on the command line of the tracing tool, that object is installed in the target; the default object is used only when none is named.", "quantifier": "all object names, targets, defaults", "why_tests_cant": "A test with the default object in both places cannot tell.", "anchors": ["src/ulftrace.c:ulftrace", "src/ulftrace.c:parse_config"]}
{"id": "C111", "title": "A dry run changes nothing", "statement": "With the dry-run option every tool leaves the target process as it was: no patch is installed or removed, no memory or register of the target is written.", "quantifier": "all targets, tools, options, states", "why_tests_cant": "The claim is about every command and every target.", "anchors": ["src/init.c:is_dry_run", "src/ulpatch.c:ulpatch", "src/args-common.c"]}
{"id": "C112", "title": "Looking at a patch file changes no file", "statement": "Checking or displaying a patch file changes, creates and removes no file of the user, whatever the outcome; a patch file stays as it was after it has been checked or displayed.", "quantifier": "all file systems, file names and contents, outcomes", "why_tests_cant": "Depends on names in the current directory and on which step fails.", "anchors": ["src/ulpatch.c:check_patch_file", "src/ulpinfo.c:show_file_patch_info", "src/patch/patch.c:alloc_patch_file"]}
{"id": "C113", "title": "No released memory when a process is opened and closed", "statement": "Whatever the memory of the target holds and however reads of it end, opening and closing it uses and releases no memory that was released before.", "quantifier": "all contents of the target, all outcomes of each read", "why_tests_cant": "Short reads inside the headers need a target racing or crafted.", "anchors": ["src/task/core.c:vma_peek_elf_hdrs", "src/task/core.c:vma_free_elf", "src/task/symbol.c:task_load_vma_elf_syms"]}
{"id": "C114", "title": "What cannot be read is not used", "statement": "When the headers of a mapping cannot be read from the target, nothing about that mapping (symbol addresses, kind) depends on uninitialised memory.", "quantifier": "all mappings, outcomes of reads, contents of fresh memory", "why_tests_cant": "Uninitialised memory is usually zero in a test.", "anchors": ["src/task/core.c:vma_peek_elf_hdrs"]}
{"id": "C115", "title": "The mapping of a segment is recognised", "statement": "With the right load address, a mapping is matched with a loadable segment on account of its range exactly if it is the mapping the kernel makes for the segment: from the page of its first to the page of its last file byte, with the protection of its flags.", "quantifier": "all segments, load addresses, mappings", "why_tests_cant": "All alignments and sizes.", "anchors": ["src/task/core.c:match_vma_phdr"]}
{"id": "C116", "title": "The hex dump shows the bytes", "statement": "A hex dump of n bytes consists of one 80 column line for each 16 bytes begun; each line starts with the offset of its first byte; byte i stands as two hexadecimal digits and as a character (a dot if not printable) in the columns of i mod 16; positions past the end are blank. Two dumps are equal only for equal bytes.", "quantifier": "all byte sequences, all memory behind them", "why_tests_cant": "Every length and byte value.", "anchors": ["src/utils/string.c:memshow"]}
{"id": "C117", "title": "The hex dump reads only the bytes given", "statement": "A hex dump reads no memory outside the bytes it was asked to show.", "quantifier": "all byte sequences", "why_tests_cant": "Reading up to 15 bytes too far goes unnoticed unless a page ends there.", "anchors": ["src/utils/string.c:memshow"]}
{"id": "C118", "title": "The hex dump returns what it wrote", "statement": "The hex dump returns the number of characters it wrote, and a negative value without writing if there are no bytes to show.", "quantifier": "all byte sequences", "why_tests_cant": "The return value is not looked at.", "anchors": ["src/utils/string.c:memshow"]}
{"id": "C119", "title": "Bytes shown can be read back", "statement": "The one-line form in which instruction bytes are shown before and after a jump is written is accepted by the tool's own byte parser, which returns the same bytes; the disassembly's byte column is the bytes in hexadecimal and its reported width is right.", "quantifier": "all byte sequences", "why_tests_cant": "All byte values and lengths.", "anchors": ["src/utils/string.c:fmembytes", "src/utils/string.c:print_bytes", "src/utils/string.c:strbytes2mem"]}
{"id": "C120", "title": "Files are shown as they are", "statement": "Printing a file writes exactly its bytes and returns their number.", "quantifier": "all file contents", "why_tests_cant": "Contents with NUL bytes or long lines.", "anchors": ["src/utils/file.c:fprint_file", "src/utils/file.c:fprint_fd"]}
{"id": "C121", "title": "The kind of a file", "statement": "A file is reported to be ELF exactly if it starts with the ELF magic, and relocatable exactly if moreover its type field says so, whatever its length, and asking leaves no descriptor open.", "quantifier": "all non-empty files", "why_tests_cant": "All contents and lengths, also shorter than a header.", "anchors": ["src/utils/file.c:ftype"]}
{"id": "C122", "title": "A file that cannot be mapped leaves nothing behind", "statement": "When a file cannot be mapped into the tool, no descriptor stays open; when it is mapped and unmapped, nothing is left.", "quantifier": "all outcomes of open, truncate and map", "why_tests_cant": "Leaks do not show in a short test.", "anchors": ["src/utils/file.c:_mmap_file"]}
{"id": "C123", "title": "The files of a process", "statement": "The paths of the memory and mapping files of a process are built with the whole process number, for every process number, and the number read back from the directory name is the same.", "quantifier": "all process numbers", "why_tests_cant": "Buffers are sized for a number of ten digits.", "anchors": ["src/task/proc.c:open_pid_maps", "src/task/proc.c:open_pid_mem_flags"]}
{"id": "C124", "title": "The name of a process", "statement": "The name reported for a process is the one the process has set.", "quantifier": "all names", "why_tests_cant": "Names with blanks, such as 'tmux: server', are easily left out of tests.", "anchors": ["src/task/proc.c:proc_pid_comm"]}
{"id": "C125", "title": "The link text is a string", "statement": "Reading a /proc link (executable, working directory) gives exactly the link's text as a string, whatever was in the buffer before.", "quantifier": "all links, all buffer contents", "why_tests_cant": "Needs stale bytes in the buffer.", "anchors": ["src/task/proc.c:read_proc_pid_symlink"]}
{"id": "C126", "title": "User and group identifiers", "statement": "The four user and four group identifiers of a process are those in its status file, whatever other lines the file has; if the lines are missing the earlier values stay.", "quantifier": "all status files", "why_tests_cant": "All other lines, in particular names that look like the lines searched for.", "anchors": ["src/task/proc.c:proc_get_pid_status"]}
{"id": "C127", "title": "Identifiers are shown as they are", "statement": "The identifiers shown for a process are the numbers that the kernel shows.", "quantifier": "all identifiers", "why_tests_cant": "Identifiers from 2^31 up.", "anchors": ["src/task/proc.c:print_task_status"]}
{"id": "C128", "title": "Every thread once", "statement": "The thread list of a process has each of its threads once, in directory order, without '.' and '..', and is shown so.", "quantifier": "all thread lists", "why_tests_cant": "All numbers and list lengths.", "anchors": ["src/task/thread.c:task_load_threads", "src/task/thread.c:dump_task_threads"]}
{"id": "C129", "title": "Every descriptor with its target", "statement": "The descriptor list of a process has each open descriptor with the target of its link; a descriptor closed while the list is read does no harm.", "quantifier": "all descriptor directories, all races with the target closing descriptors", "why_tests_cant": "Needs the target to close a descriptor in the middle.", "anchors": ["src/task/fd.c:task_load_fds", "src/task/fd.c:dump_task_fds"]}
{"id": "C130", "title": "The current process is never a closed one", "statement": "After any sequence of openings (successful or not) and closings of processes, the current process is either none or one that is open.", "quantifier": "all sequences of calls, all system call outcomes", "why_tests_cant": "All interleavings and failures.", "anchors": ["src/task/current.c:get_current_task", "src/task/core.c:open_task", "src/task/core.c:close_task"]}
{"id": "C131", "title": "The current process is the last one opened that is still open", "statement": "After any sequence of openings and closings the current process is the one opened last among those still open.", "quantifier": "all sequences of calls", "why_tests_cant": "Needs several processes open at a time.", "anchors": ["src/task/current.c:reset_current_task", "src/task/core.c:close_task"]}
{"id": "C132", "title": "Why a process could not be opened", "statement": "When a process cannot be opened, the error number left is that of the step that failed.", "quantifier": "all system call outcomes", "why_tests_cant": "Each failing step would have to be provoked.", "anchors": ["src/task/core.c:open_task"]}
{"id": "C133", "title": "A process that ends while it is opened", "statement": "A process that ends while it is being opened leads to an error and not to a crash of the tool.", "quantifier": "all moments at which the process ends", "why_tests_cant": "Races.", "anchors": ["src/task/core.c:open_task", "src/task/proc.c:proc_pid_comm"]}
{"id": "C134", "title": "A failed opening leaves the private directory alone", "statement": "Opening a process that fails leaves the files that earlier runs keep about it as they were; opening and closing touches no files but those about the process, and no patch files.", "quantifier": "all file systems, all system call outcomes", "why_tests_cant": "All states of the directory and failing steps.", "anchors": ["src/task/core.c:open_task", "src/task/core.c:__check_and_free_task_proc"]}
{"id": "C135", "title": "Descriptors are returned", "statement": "A process that is opened and closed, or that cannot be opened, leaves the tool with the descriptors it had before.", "quantifier": "all system call outcomes", "why_tests_cant": "Each failing step; leaks do not show.", "anchors": ["src/task/core.c:open_task", "src/task/core.c:close_task", "src/task/proc.c:proc_pid_comm"]}
{"id": "C136", "title": "Only what is asked for is loaded", "statement": "Opening a process loads what the flags ask for, and nothing else: ELF headers, ELF files, symbols, threads, descriptors, private directory.", "quantifier": "all flags, all system call outcomes", "why_tests_cant": "All combinations of flags.", "anchors": ["src/task/core.c:open_task", "src/task/core.c:vma_load_elf_file"]}
{"id": "C137", "title": "The memory map is read as the kernel shows it", "statement": "For every mapping of the process the tool records the addresses, permissions, offset, device, inode and path that the kernel shows.", "quantifier": "all memory maps of processes", "why_tests_cant": "All paths and numbers the kernel can show.", "anchors": ["src/task/vma.c:read_task_vmas"]}
{"id": "C138", "title": "A deleted file is not taken for the file now there", "statement": "A mapping of a file that was deleted (as when a library is upgraded under a running process) is not taken for a mapping of the file now at that path.", "quantifier": "all memory maps, all paths", "why_tests_cant": "Needs files replaced under a running process.", "anchors": ["src/task/vma.c:read_task_vmas"]}
{"id": "C139", "title": "One mapping for each line of the map", "statement": "Reading the memory map of a process yields one mapping for each line of it, in order, with the addresses of the line.", "quantifier": "all memory maps, paths of every length", "why_tests_cant": "Needs paths of about a thousand bytes.", "anchors": ["src/task/vma.c:read_task_vmas"]}
{"id": "C140", "title": "A target cannot overflow the buffers of the tool by its memory map", "statement": "Whatever files the target maps, reading its memory map writes within the buffers of the tool.", "quantifier": "all memory maps, all paths a target may choose", "why_tests_cant": "Adversarial input: the path has to be laid out exactly.", "anchors": ["src/task/vma.c:read_task_vmas"]}
{"id": "C141", "title": "Addresses are looked up exactly in the map as read", "statement": "After reading the text of the memory map every address inside a mapping is found to be in that mapping, and every other address in none.", "quantifier": "all memory maps with ordered, disjoint mappings, all addresses", "why_tests_cant": "All maps and all addresses, through parser, tree and lookup.", "anchors": ["src/task/vma.c:read_task_vmas", "src/task/vma.c:find_vma"]}
{"id": "C142", "title": "Page size and page shift agree", "statement": "The page shift the tool uses is the logarithm of the page size the kernel reports, on the first call and on every later one.", "quantifier": "all page sizes that are powers of two, all orders of calls", "why_tests_cant": "A test runs with one page size.", "anchors": ["src/init.c:ulp_page_size", "src/init.c:ulp_page_shift"]}
{"id": "C143", "title": "The listing of mappings tells them apart", "statement": "Two lists of mappings that are listed as the same text agree in kinds, addresses, permissions, roles, offsets and names; the offset listed is the offset in the file.", "quantifier": "all lists of mappings with four permission characters and names without newline", "why_tests_cant": "Injectivity over all lists.", "anchors": ["src/task/vma.c:print_vma", "src/task/vma.c:print_vma_root"]}
{"id": "C144", "title": "The build id is the last id note of the file", "statement": "Opening an ELF file gives as build id the lower case digits of the descriptor of the last GNU build-id note in its note sections; without one a relocatable file is opened with a fixed text and any other is refused.", "quantifier": "all files whose sections have names, whose note sections are well-formed notes with descriptors below 2^31 - 1 bytes, and whose symbols are well-formed", "why_tests_cant": "All sequences of notes of all owners, types and sizes.", "anchors": ["src/elf/note.c:handle_notes", "src/elf/note.c:elf_object_note", "src/elf/open.c:elf_file_open"]}
{"id": "C145", "title": "Note sections cannot make the tool leave its memory", "statement": "Whatever the bytes of a note section are, reading it ends and stays in memory.", "quantifier": "all byte strings as note sections", "why_tests_cant": "All byte strings; a test tries a few broken ones.", "anchors": ["src/elf/note.c:handle_notes", "src/elf/note.c:elf_object_note"]}
{"id": "C146", "title": "Malformed ELF files are refused without harm", "statement": "Opening any file with an ELF header either succeeds or is refused; the tool does not read memory it does not have.", "quantifier": "all contents of files", "why_tests_cant": "All malformed files.", "anchors": ["src/elf/section.c:handle_sections", "src/elf/symbol.c:handle_symtab", "src/elf/symbol.c:link_symbol", "src/elf/phdr.c:handle_phdrs"]}
{"id": "C147", "title": "A symbol looked up is the first of its name and kind", "statement": "Looking a name up among the defined, undefined or external symbols of a file gives the first symbol of that name and kind in the static table followed by the dynamic one, and nothing if there is none.", "quantifier": "all well-formed files, all names, all kinds", "why_tests_cant": "All symbol tables with any duplicates.", "anchors": ["src/elf/symbol.c:handle_symtab", "src/elf/symbol.c:link_symbol", "src/elf/symbol.c:find_symbol", "src/elf/section.c:handle_sections"]}
{"id": "C148", "title": "Files that call a tracing function are recognised", "statement": "A file with a symbol for one of the tracing functions is recognised as traceable, others are not.", "quantifier": "all well-formed files", "why_tests_cant": "All symbol tables.", "anchors": ["src/elf/symbol.c:handle_symtab", "src/elf/symbol.c:is_ftrace_entry"]}
{"id": "C149", "title": "A symbol knows the segments it is in", "statement": "The program headers remembered for a symbol are those of the segments its section is in.", "quantifier": "all well-formed files, all symbols", "why_tests_cant": "All layouts of sections and segments, including uninitialised data.", "anchors": ["src/elf/symbol.c:link_symbol"]}
{"id": "C150", "title": "The listing of symbols tells them apart", "statement": "Two symbols listed as the same line agree in name, value, size, section, type, binding and visibility.", "quantifier": "all symbols and names", "why_tests_cant": "Injectivity over all symbols.", "anchors": ["src/elf/symbol.c:fprint_sym", "src/elf/symbol.c:st_visibility_string"]}
{"id": "C151", "title": "Symbol versions are found", "statement": "The version of a symbol in a file with symbol versions is found and shown.", "quantifier": "all files with symbol versions", "why_tests_cant": "All files.", "anchors": ["src/elf/symbol.c:get_next_symbol"]}
{"id": "C152", "title": "The listing of program headers tells them apart", "statement": "Two program headers listed as the same text agree in all fields.", "quantifier": "all program headers", "why_tests_cant": "Injectivity over all headers.", "anchors": ["src/elf/phdr.c:print_phdr", "src/elf/phdr.c:phdr_type_str"]}
{"id": "C153", "title": "The listing of the ELF header tells it", "statement": "Two ELF headers listed as the same text agree in all fields; what does not begin like an ELF file is refused and nothing is listed.", "quantifier": "all ELF headers", "why_tests_cant": "Injectivity over all headers.", "anchors": ["src/elf/ehdr.c:print_ehdr"]}
{"id": "C154", "title": "Options can be written in every documented form and order", "statement": "A tool understands short options (separate, clustered, with their value attached or in the next word), long options (with '=' or the next word, in full or abbreviated) and other words in any order; what it understands is what the words say, and exactly the lines that say something are understood.", "quantifier": "all option tables without duplicates, all command lines", "why_tests_cant": "All forms and orders of words.", "anchors": ["src/ulpatch.c:parse_config", "src/ultask.c:parse_config", "src/ulftrace.c:parse_config", "src/ulpinfo.c:parse_config"]}
{"id": "C155", "title": "An unusable command line does nothing and is reported", "statement": "A tool starts its work only if every word of its command line is understood; it ends with status 0 before its work only if help, the version or information was asked for; reading the command line never writes outside the tool's memory.", "quantifier": "all command lines and systems whose paths are at most 4095 long", "why_tests_cant": "All ways to misuse a command line.", "anchors": ["src/args-common.c:COMMON_GETOPT_CASES", "src/ultask.c:parse_config", "src/ulpatch.c:parse_config"]}
{"id": "C156", "title": "The process acted on is the one named", "statement": "The process a tool acts on exists and is the one the last -p or --pid names; if the text names no process, nothing is done.", "quantifier": "all command lines", "why_tests_cant": "All texts for numbers.", "anchors": ["src/ulpatch.c:parse_config", "src/ultask.c:parse_config", "src/ulftrace.c:parse_config", "src/ulpinfo.c:parse_config"]}
{"id": "C157", "title": "ulpatch does what is asked, and all of it", "statement": "ulpatch acts only on a command; it applies the patch named, after the patch was checked, or removes one; it does not drop commands without a word.", "quantifier": "all command lines", "why_tests_cant": "All combinations of commands.", "anchors": ["src/ulpatch.c:parse_config"]}
{"id": "C158", "title": "An existing output file is kept unless forced", "statement": "ultask goes on with an output file that exists only if -F or --force was given; the output file is the last one named; dumps to a file need one.", "quantifier": "all command lines", "why_tests_cant": "All orders of options.", "anchors": ["src/ultask.c:parse_config"]}
{"id": "C159", "title": "The target is opened read-only unless a change is asked for", "statement": "ultask opens the target for reading only exactly if none of --jmp, --map, --unmap, --mprotect was given.", "quantifier": "all command lines", "why_tests_cant": "All combinations of options.", "anchors": ["src/ultask.c:parse_config"]}
{"id": "C160", "title": "The words of --mprotect can come in any order", "statement": "--mprotect accepts exactly lists of its documented words with an address and length in whole pages, and none only alone; the protection is the set of words named; the order of the words does not matter.", "quantifier": "all lists of sub-options", "why_tests_cant": "All lists and orders.", "anchors": ["src/ultask.c:parse_config"]}
{"id": "C161", "title": "The length for --mprotect can be written as the help says", "statement": "A length written as any documented size (decimal, hexadecimal, with KB, MB or GB) is the length whose protection is changed.", "quantifier": "all sizes", "why_tests_cant": "All sizes.", "anchors": ["src/ultask.c:parse_config", "src/utils/string.c:str2addr"]}
{"id": "C162", "title": "Any file can be mapped with --map", "statement": "For every file name there is an argument of --map that names it, with any of the other sub-options in any order.", "quantifier": "all file names and sub-options", "why_tests_cant": "All names.", "anchors": ["src/ultask.c:parse_config"]}
{"id": "C163", "title": "The file mapped is the one meant", "statement": "The file mapped is the one named, relative names in the directory of the target; it exists, is regular and not empty.", "quantifier": "all command lines and directories", "why_tests_cant": "All names and directories.", "anchors": ["src/ultask.c:parse_config"]}
{"id": "C164", "title": "A call of ulpatch() does not depend on earlier calls", "statement": "Calling ulpatch() repeatedly in one process, each call does what it would do as the first one.", "quantifier": "all earlier calls and command lines", "why_tests_cant": "All histories.", "anchors": ["src/ulpatch.c:ulpatch_args_reset", "src/args-common.c:args_common_reset"]}
{"id": "C165", "title": "The directory for all processes can be used by every user", "statement": "After a tool started, the directory for all processes can be written and searched by every user; starting does not fail if it exists.", "quantifier": "all users, masks and earlier states", "why_tests_cant": "All users and masks.", "anchors": ["src/init.c:__env_init"]}
{"id": "C166", "title": "ulpinfo shows everything asked for", "statement": "ulpinfo shows the file and the process named, and refuses to start if neither is.", "quantifier": "all command lines", "why_tests_cant": "All combinations.", "anchors": ["src/ulpinfo.c:ulpinfo"]}
{"id": "C167", "title": "--dump dumps what is named", "statement": "Each --dump dumps exactly what it names: the mapping at an address, the vdso, code, or memory from an address on; other combinations are refused.", "quantifier": "all lists of sub-options", "why_tests_cant": "All lists and orders.", "anchors": ["src/ultask.c:parse_config"]}
{"id": "C168", "title": "A patched process behaves like the program with its functions replaced", "statement": "After any history of patches applied and removed, with any number of threads, the running process behaves like its original program in which each thread that comes to a replaced function goes on at the replacement that the newest patch for it recorded.", "quantifier": "all histories, machines, thread counts, schedules and numbers of steps", "why_tests_cant": "Behaviour over unbounded interleaved executions of an arbitrary program.", "anchors": ["src/patch/patch.c:kick_target_process", "src/patch/patch.c:delete_patch", "src/arch/x86_64/instruments.h", "src/arch/aarch64/instruments.h"]}
{"id": "C169", "title": "A patch applied while a thread is inside the function does no harm", "statement": "A thread that is inside the function at the time a patch is applied goes on as if the function had not been patched, until it comes to the function again.", "quantifier": "all thread positions and schedules", "why_tests_cant": "The moment at which the target is stopped is not under a test's control.", "anchors": ["src/patch/patch.c:kick_target_process", "src/task/core.c:task_attach"]}
{"id": "C170", "title": "A patch removed while a thread is inside the replacement does no harm", "statement": "After a patch is removed, the process behaves like the program with only the remaining replacements, wherever its threads were at that time.", "quantifier": "all thread positions, histories and schedules", "why_tests_cant": "The moment of removal is not under a test's control.", "anchors": ["src/patch/patch.c:delete_patch"]}
{"id": "C171", "title": "No thread sees a half written jump", "statement": "While a patch is applied, every thread executes either the old or the new code of the function, never a mixture.", "quantifier": "all moments of the write, threads and schedules", "why_tests_cant": "A race between the tool's write and running threads.", "anchors": ["src/patch/patch.c:kick_target_process", "src/task/memcpy.c:memcpy_to_task"]}
{"id": "C172", "title": "Two tools at work on one process do not disturb each other", "statement": "If two tools patch one process at the same time, the result is that of one after the other: no file is patched twice, numbers differ, and removing all patches restores the code.", "quantifier": "all interleavings of the steps of two tools", "why_tests_cant": "All interleavings of two processes.", "anchors": ["src/patch/patch.c:init_patch", "src/patch/patch.c:delete_patch", "src/task/patch.c"]}
{"id": "C173", "title": "A string written into a process is there", "statement": "After a string has been written into a process, the process has the string and its terminator at that address, nothing else of it has changed, and reading the string back gives the same string; a write that does not happen is reported.", "quantifier": "all strings, addresses, memories and outcomes of the write", "why_tests_cant": "All strings, lengths and short writes.", "anchors": ["src/task/memcpy.c:strcpy_to_task", "src/task/memcpy.c:strcpy_from_task"]}
{"id": "C174", "title": "An applied patch is linked for its process", "statement": "When a patch has been applied, every relocated place of its mapping has the value that the psABI prescribes for that place and the address at which the process has the symbol; everything else is as in the file; and the replaced function starts with a jump to the address of the new one.", "quantifier": "all patch files, processes, load addresses, earlier patches", "why_tests_cant": "All object files, symbol tables and relocation tables; end to end over the whole of applying.", "anchors": ["src/patch/patch.c:load_patch", "src/patch/patch.c:simplify_symbols", "src/patch/patch.c:apply_relocations", "src/patch/patch.c:kick_target_process", "src/arch/x86_64/patch.c:apply_relocate_add"]}
{"id": "C175", "title": "An applied patch is linked for its process on aarch64", "statement": "When a patch has been applied on aarch64, every relocated place of its mapping has the value that AAELF64 prescribes for that place in the process and the address at which the process has the symbol, with the other bits of instructions kept; everything else is as in the file.", "quantifier": "all patch files, processes, addresses of the file in the tool, earlier patches", "why_tests_cant": "All object files and addresses at which tool and process have the file; end to end over the whole of applying.", "anchors": ["src/arch/aarch64/patch.c:arch_apply_relocate_add", "src/patch/patch.c:apply_relocations", "src/patch/patch.c:load_patch"]}
{"id": "C176", "title": "Which definition a name denotes in a process", "statement": "For every process whose symbols the tool has read, the address found for a name is that of exactly one symbol: in the patch mapped lowest that defines the name, the first of its symbol table, with the value linked there; else in the file mapped lowest that has a symbol of that name without version suffix at all, code before data before stubs, and within the kind the first in the order static symbols (dynamic ones if there are none), then synthetic ones; the address is the symbol's value plus the load address of the file, modulo 2^64. The answer is 0 if no patch and no file has such a symbol.", "quantifier": "all processes, files, symbol tables and names", "why_tests_cant": "the answer depends on the order of the mappings, three indexes per file and the table of the process together", "anchors": ["src/task/symbol.c:task_load_vma_elf_syms", "src/task/core.c:open_task", "src/patch/patch.c:resolve_symbol", "src/patch/patch.c:load_ulp_info_from_vma", "src/elf/symbol-bfd.c:file_load"]}
{"id": "C177", "title": "A name denotes what the process itself would bind it to", "statement": "The address found for a name used by a patch, or for the function to be replaced, is the one the dynamic loader of the process binds the name to.", "quantifier": "all processes, search scopes and names", "why_tests_cant": "depends on stubs, static symbols, symbol versions, indirect functions and the order of the libraries", "anchors": ["src/patch/patch.c:resolve_symbol", "src/task/symbol.c:task_load_vma_elf_syms"]}
{"id": "C178", "title": "Files a process has merely mapped do not change what names denote", "statement": "If a process maps an ELF file only to read it, every name denotes the same address as without that mapping.", "quantifier": "all processes, files and names", "why_tests_cant": "needs a process that maps object files as data", "anchors": ["src/task/core.c:open_task", "src/task/symbol.c:task_load_vma_elf_syms"]}
{"id": "C179", "title": "Patches in a process do not change what names denote", "statement": "A patch applied earlier, a mapping without an ELF header and a mapping whose file cannot be read leave the address found for every name unchanged.", "quantifier": "all processes, positions of the mapping and names", "why_tests_cant": "quantifies over all patches applied before and all names", "anchors": ["src/patch/patch.c:load_ulp_info_from_vma", "src/task/symbol.c:task_load_vma_elf_syms"]}
{"id": "C180", "title": "The list of symbols shows every name once", "statement": "The list of the symbols of a process has exactly one line for every name, with the file it comes from and the address that the name denotes; with the verbose option it has exactly one line for every name and address that belong together.", "quantifier": "all sets of symbols, names, addresses and orders of registration", "why_tests_cant": "needs every possible set of symbols and shape of the index", "anchors": ["src/ultask.c:list_all_symbols", "src/task/symbol.c:next_task_sym"]}
{"id": "C181", "title": "The list of symbols is in alphabetical order", "statement": "The lines of the list of symbols are in the alphabetical order of the names.", "quantifier": "all sets of symbols", "why_tests_cant": "a property of all sets of names", "anchors": ["src/ultask.c:list_all_symbols", "src/utils/rbtree.c:rb_insert_node"]}
{"id": "C182", "title": "A disassembly shows all the code", "statement": "If a disassembly succeeds, it shows one instruction after the other, each with its address and its bytes, until all the bytes given are shown.", "quantifier": "all bytes, addresses and decoders", "why_tests_cant": "needs all byte sequences, including those with data in between", "anchors": ["src/utils/disasm.c:fdisasm"]}
{"id": "C183", "title": "Disassembled memory is shown at its address", "statement": "Disassembling memory of a process shows each instruction with its address in the process.", "quantifier": "all processes, addresses and sizes", "why_tests_cant": "depends on the addresses of two processes", "anchors": ["src/ultask.c:run_disasm", "src/utils/disasm.c:fdisasm"]}
{"id": "C184", "title": "Disassembled memory is that of the process", "statement": "The bytes shown when memory of a process is disassembled are those of the process; what cannot be read is reported.", "quantifier": "all processes, addresses, sizes and results of the read", "why_tests_cant": "needs reads that end early", "anchors": ["src/ultask.c:run_disasm", "src/task/memcpy.c:memcpy_from_task"]}
{"id": "C185", "title": "Dumping the vdso", "statement": "The option to dump the vdso writes exactly the mapping of the vdso and reports when there is none.", "quantifier": "all memory maps", "why_tests_cant": "needs processes without a vdso", "anchors": ["src/ultask.c:ultask", "src/task/vma.h:task_vdso_vma"]}
{"id": "C186", "title": "Signals do not disturb remote system calls", "statement": "Signals that other processes, timers or the kernel send to the target while the tool makes it perform a system call do not disturb the call: the kernel is entered exactly once with the requested number and arguments, its result is returned, and registers and borrowed code are as before.", "quantifier": "all signals arriving at any point, any number of them, all handlers that return, all calls, both architectures", "why_tests_cant": "Which signal arrives between resuming and the system call instruction is a race; a test would have to hit it, for every signal.", "anchors": ["src/task/syscall.c:wait_for_stop", "src/task/syscall.c:task_syscall", "src/task/patch.c:create_mmap_vma_file"]}
{"id": "C187", "title": "Signals reach the process", "statement": "A signal sent to the process while the tool attaches to it or makes it perform a system call is delivered to it, once and in order, and it gets no signal that was not sent.", "quantifier": "all sequences of events reported for the process, all failures of the requests", "why_tests_cant": "Needs every interleaving of signals with the tool's requests.", "anchors": ["src/task/core.c:task_attach", "src/task/syscall.c:wait_for_stop"]}
{"id": "C188", "title": "The list of patches shows every patch", "statement": "ulpinfo -p PID prints one row for every patch mapping of the process that is an ELF file, in the order of the memory map, numbered from 1, with the number, the date, the start address and the replaced function that the mapping states; if there is none it says so.", "quantifier": "all processes, numbers of patches, contents of the mappings and times", "why_tests_cant": "a test lists the one or two patches that the same build of the tool has just applied; it cannot cover mappings of other versions or arbitrary contents", "anchors": ["src/ulpinfo.c:134-190", "src/patch/patch.c:51-57", "src/patch/patch.c:248-304", "src/task/patch.c:29-122"]}
{"id": "C189", "title": "The jump shown with a patch is its own", "statement": "For each patch that ulpinfo --verbose shows, the address after \"jmp addr =\" is the one in the code of the replaced function, and it is the address of the function of that patch.", "quantifier": "all memory contents, decoders and outcomes of the read", "why_tests_cant": "a test shows one patch of a readable process; failed reads and stacked patches with arbitrary contents are not produced", "anchors": ["src/patch/patch.c:59-124", "src/patch/patch.h:83-86"]}
{"id": "C190", "title": "The C library of the process is found", "statement": "When a tool opens a process, the mapping whose code it borrows for remote calls is executable code of the C library of the process, if there is one in the memory map together with a stack; a process without them is refused.", "quantifier": "all memory maps that the kernel can show", "why_tests_cant": "a test opens processes of one distribution, with the libraries of one program; it cannot cover all maps and all names of files", "anchors": ["src/task/vma.c:207-257", "src/task/vma.c:385-394", "src/task/core.c:509-516", "src/task/syscall.c:137"]}
{"id": "C191", "title": "Built-in system calls of patches reach the kernel as written", "statement": "A patch that uses __ulp_builtin_sleep, __ulp_builtin_exit or __ulp_builtin_write makes exactly that system call, with the arguments given, wherever the compiler puts the operands; exit ends the process", "quantifier": "all requests and arguments, all register allocations and omissions the compiler is allowed, both architectures, all register and memory contents, all kernels", "why_tests_cant": "the compiler's choice of registers, and whether it keeps the statement, differ with every surrounding function and optimisation level; a test sees one choice", "anchors": ["src/patch/asm.h:20-30", "src/patch/asm.h:58-76", "src/patch/asm.h:89-136"]}
{"id": "C192", "title": "Built-in system calls of patches evaluate to the kernel's result", "statement": "The value of __ulp_builtin_sleep and __ulp_builtin_write is what the kernel returned", "quantifier": "all requests, compiler choices, states and kernel results, both architectures", "why_tests_cant": "a test sees one register allocation, and a result that is right by accident looks the same", "anchors": ["src/patch/asm.h:20-46", "src/patch/asm.h:89-136"]}
{"id": "C193", "title": "Built-in system calls of patches disturb nothing else", "statement": "Using a built-in system call changes no register and no memory of the patched function apart from the result and what the kernel does for the call", "quantifier": "all requests, compiler choices, states and kernels, both architectures", "why_tests_cant": "whether a changed register or stack byte held something depends on the code around the call", "anchors": ["src/patch/asm.h:20-163"]}
{"id": "C194", "title": "The built-in greeting writes its line", "statement": "__ulp_builtin_write_hello writes the line Hello to standard output, whatever the registers contain", "quantifier": "all register and memory contents, all kernels, both architectures", "why_tests_cant": "the registers hold values left by the surrounding code, and a terminal does not show the difference", "anchors": ["src/patch/asm.h:107-117", "src/patch/asm.h:138-163"]}
{"id": "C195", "title": "The tracing tool settles what to trace and with what", "statement": "When the tracing tool goes past its command line, the function is the one the last -f or --function names, and the object is the one the last -j or --patch-obj names, or the installed one if none is named; that object exists and is a relocatable ELF file. Without a function, or with an object that is missing or of another kind, the tool stops.", "quantifier": "all command lines, all systems", "why_tests_cant": "The options combine in unboundedly many ways.", "anchors": ["src/ulftrace.c:75-157"]}
{"id": "C196", "title": "Shared options mean the same with every tool", "statement": "With every tool the level of messages is the one the last of --log-level, --lv, --log-debug and --log-error names (errors only without one), the verbosity is that of the last -v (one, and one for each further v), and dry run and force are set exactly when their options are given, whatever stands between them.", "quantifier": "all command lines of all four tools", "why_tests_cant": "All orders and repetitions of options.", "anchors": ["src/args-common.c:51-111", "src/init.c:112-146", "src/utils/string.c:364-377"]}
{"id": "C197", "title": "A summary of the process is shown exactly when nothing else is asked for", "statement": "When ultask goes past its command line, it shows the summary of the process if and only if none of --vmas, --threads, --fds, --auxv, --status, --dump, --jmp, --map, --unmap, --mprotect and --symbols was given.", "quantifier": "all command lines", "why_tests_cant": "Actions are derived from fourteen variables that options with sub-options set.", "anchors": ["src/ultask.c:498-523", "src/ultask.c:883"]}
{"id": "C198", "title": "Leaders in the list of mappings", "statement": "When the mappings of a process are listed, every mapping appears once, in the order of /proc/PID/maps, and the mark L is at exactly those mappings with which a run of neighbouring mappings of the same file begins.", "quantifier": "for all lists of mappings and all contents of their memory", "why_tests_cant": "the runs depend on the whole list; tests look at the maps of a few real processes", "anchors": ["src/task/vma.c:64-77", "src/task/vma.c:335-400", "src/task/vma.c:425-434"]}
{"id": "C199", "title": "Mappings of segments are marked", "statement": "In the list of mappings, the mark P is at a mapping of a loaded ELF file exactly if it is the mapping of a segment of that file, including the two parts into which the protection after relocation cuts a segment.", "quantifier": "for all sound program header tables, biases and mappings of the file", "why_tests_cant": "depends on the arithmetic of pages for all tables; tests see the usual layout of one linker", "anchors": ["src/task/core.c:37-114", "src/task/core.c:288-364"]}
{"id": "C200", "title": "Address offset shown for a mapping", "statement": "The Voffset shown for a mapping of an ELF file is the link-time address of the segment that is mapped there.", "quantifier": "for all program header tables and mappings", "why_tests_cant": "in the usual files most segments have equal file offset and address, so tests see right values", "anchors": ["src/task/core.c:288-329", "src/task/vma.c:435-439"]}
{"id": "C201", "title": "Number of patches in the summary", "statement": "The summary of a process tells the number of patches that are in effect, and says nothing about patches if there are none, whatever patches were applied and removed before.", "quantifier": "for all histories of applied, failed and removed patches", "why_tests_cant": "the number shown is the largest identifier; that it is the count is an invariant of histories", "anchors": ["src/task/core.c:422-444", "src/task/patch.c:100-125", "src/patch/patch.c:844"]}
{"id": "C202", "title": "Position independence in the summary", "statement": "The summary says PIE: YES exactly if the program file of the process is a position independent executable.", "quantifier": "for all lists of mappings and ELF headers found in them", "why_tests_cant": "the last header found in a mapping of the program file counts; tests run programs with one header", "anchors": ["src/task/core.c:193-214", "src/task/core.c:422-444"]}
{"id": "C203", "title": "Groups of mappings after a refresh", "statement": "After the memory map of an open process was read again, the mapping recorded for each mapping of the current map has the first mapping of its run of equally named mappings as leader, as if the map had been read for the first time.", "quantifier": "all maps read before and now, all names", "why_tests_cant": "All maps and all changes between two readings.", "anchors": ["src/task/vma.c:read_task_vmas", "src/task/vma.c:insert_vma", "src/task/patch.c:update_task_vmas_ulp"]}
{"id": "C204", "title": "Names of mappings after a refresh", "statement": "After the memory map of an open process was read again, the mapping found at the start of each mapping of the current map has its range and its name.", "quantifier": "all maps read before and now, all names", "why_tests_cant": "All maps and all changes between two readings.", "anchors": ["src/task/vma.c:read_task_vmas", "src/task/vma.c:find_vma"]}
{"id": "C205", "title": "The listing of the auxiliary vector", "statement": "What --auxv shows are a head line and then, each on a line that begins with its name, the values the kernel gave the process for the program headers, their size and number, the base of the interpreter and the entry point, in hexadecimal (size and number in decimal as well); a process not opened for its vector shows nothing and an error is reported.", "quantifier": "all auxiliary vectors the tool accepts", "why_tests_cant": "All vectors and values.", "anchors": ["src/task/auxv.c:print_task_auxv", "src/task/auxv.c:load_task_auxv"]}
{"id": "C206", "title": "State of a file of the process", "statement": "Asking for the state of an open file of the process either fails, or delivers what the kernel says of that descriptor of the process, leaving no memory allocated in the process.", "quantifier": "all processes, descriptors and answers of the kernel, x86-64 and aarch64", "why_tests_cant": "All answers of the kernel, which include those a test machine does not give.", "anchors": ["src/task/syscall.c:task_fstat"]}
{"id": "C207", "title": "Process controls of the process", "statement": "A process control (prctl) asked for is made in the process with the option and the arguments given and the answer of the kernel is delivered; if it cannot be made this is reported.", "quantifier": "all options, arguments, answers of the kernel, failures, x86-64 and aarch64", "why_tests_cant": "All answers and failures.", "anchors": ["src/task/syscall.c:task_prctl"]}
{"id": "C208", "title": "Opening any file as an object file is safe", "statement": "Opening any existing file for its symbols ends without a memory error: with no file for an archive or what is no object file, and otherwise with a file in which the first symbol of each name and class is found.", "quantifier": "all answers of the system and of the object-file library about a file", "why_tests_cant": "a damaged symbol table and a file without read permission do not occur among test files", "anchors": ["src/elf/symbol-bfd.c:file_load", "src/elf/symbol-bfd.c:slurp_symtab", "src/elf/symbol-bfd.c:slurp_dynamic_symtab", "src/elf/symbol-bfd.c:bfd_elf_open"]}
{"id": "C209", "title": "Closing an object file gives back all of it", "statement": "Closing a file opened for its symbols gives back everything that was allocated for it, each thing exactly once.", "quantifier": "all files and symbol tables", "why_tests_cant": "a test sees no leak and no double release, and which symbols are refused by the tree depends on their names", "anchors": ["src/elf/symbol-bfd.c:bfd_elf_close", "src/elf/symbol-bfd.c:link_bfd_sym", "src/elf/symbol-bfd.c:free_bfd_sym"]}
{"id": "C210", "title": "A file that cannot be opened leaves nothing behind", "statement": "When opening a file for its symbols fails, nothing stays allocated.", "quantifier": "all answers of the system and of the object-file library about a file", "why_tests_cant": "the leak is invisible to a test that looks at the returned NULL", "anchors": ["src/elf/symbol-bfd.c:file_load"]}
{"id": "C211", "title": "What is shown of a patch file is what is in it", "statement": "Asked for a patch file, the information tool prints the file name given, the magic, the names of the replacing and the replaced function, the author, the license, the patch number, the three addresses, the two words of saved code (disassembled when they are not all zero), the time with its date, flags, version, the four pad bytes and the build id, and each of them is what the file holds: the strings are those of the first section of the respective name, the numbers the fields of the record in the file, the build id the two-digit hex of the bytes of the note ((null) when the note is of another type). A file that is no patch gives an error and no text. Nothing outside the file is read.", "quantifier": "all files, names, dates, host addresses, decoders; files that are no patch", "why_tests_cant": "every combination of section positions, field values and string lengths would have to be tried; reads past the end of the file are silent in a test", "anchors": ["src/ulpinfo.c:93-132", "src/patch/patch.c:28-124", "src/patch/patch.c:396-428"]}
{"id": "C212", "title": "A new patch gets a file of its own", "statement": "Applying a patch changes no existing file: the copy of the patch file is made under a new name in the directory of the process, holds exactly the bytes of the patch file after success, and is gone after a failure. In particular the files of the patches that are already in the process, which are mapped into it, stay as they are.", "quantifier": "all file systems, working directories, processes, sequences of random names, failures", "why_tests_cant": "the names are random: a collision does not happen in a test", "anchors": ["src/patch/patch.c:149-175", "src/patch/patch.c:189-246", "src/patch/patch.c:976-1038", "src/utils/file.c:277-282"]}
{"id": "C213", "title": "Choosing a temporary name leaves no trace", "statement": "Choosing a temporary name leaves the file system as it was; making a temporary file creates one new, empty file of that name and changes nothing else, or fails and changes nothing; it succeeds if the directory can be written and one of the names that are tried is free.", "quantifier": "all file systems, directories, prefixes, sequences of random names", "why_tests_cant": "the outcomes of mkstemp (a name in use, a directory that cannot be written, descriptor 0) depend on the environment of the tool", "anchors": ["src/utils/file.c:260-282", "src/patch/patch.c:149-175"]}
{"id": "C214", "title": "Functions and variables are told apart by their sections", "statement": "In a loaded object file every symbol of a section that is in memory at run time counts as a function if the section is executable and as a variable otherwise, and never as both; so the name of every function of the file is found among the functions, and the name of every variable among the variables, with the nonzero address of a symbol of that name.", "quantifier": "all section headers, symbol tables, names, classes", "why_tests_cant": "a test looks up a few names of .text and .data of its own executable; sections of other kinds and attributes do not occur in it", "anchors": ["src/elf/symbol-bfd.c:132-148", "src/elf/symbol-bfd.c:200-219", "src/elf/symbol-bfd.c:340-440"]}
{"id": "C215", "title": "The call at the beginning of a function is found and replaced", "statement": "Given the code of a function, as a sequence of instructions that holds a call, the search for the call of the tracing hook gives the offset of the first call instruction. The call or the empty instruction that is generated for that place has the length of the call, so that writing it there changes no other instruction; the new call goes to the given address whenever that is within reach, and returns behind itself.", "quantifier": "all code, addresses, lengths, both architectures", "why_tests_cant": "a test tries the code that one compiler generated for one function; which bytes precede the call depends on the compiler and the function", "anchors": ["src/arch/x86_64/insn.c:59-75", "src/arch/x86_64/ftrace.c:15-24", "src/arch/x86_64/alternative.c:39-68", "src/arch/aarch64/insn.c:224-234"]}
{"id": "C216", "title": "Author and license are shown as they were written", "statement": "The texts that the source of a patch gives for its author and its license, in printable characters, are shown for the patch file character by character, whatever other macros the source contains; a source with such texts is accepted by the assembler.", "quantifier": "all texts, sequences of macros, places of the sections in the file", "why_tests_cant": "the texts go through the compiler, the assembler and the file; a test uses one text without special characters", "anchors": ["src/patch/meta.h:62-83", "src/patch/patch.c:36-49", "src/patch/patch.c:480-515"]}
{"id": "C217", "title": "Each replacement that a patch names is made", "statement": "Every replacement of a function that the source of a patch names is found in the patch file with the names as they were written and with a fresh record of the version of the tool, or the patch is refused: none is passed over.", "quantifier": "all sequences of macros, names, places of the sections in the file", "why_tests_cant": "the patches of the tests name one replacement each", "anchors": ["src/patch/meta.h:36-60", "src/patch/patch.c:396-414", "src/patch/patch.c:435-480"]}
{"id": "C218", "title": "The flags that ulpconfig prints are those asked for, for the compiler and linker named", "statement": "Whatever way the options are written, ulpconfig ends with status 0 and prints on its standard output one line: with --cflags the flags that are always needed followed by those flags of the machine that the named compiler accepts, with --ldflags the linker flags, and with the flag about writable segments if and only if the named linker knows it; nothing else. The compiler and the linker are the last ones named (gcc and ld if none is), wherever they stand on the command line. An unknown or ambiguous option, a compiler or linker that cannot be run, and a command line that asks for nothing end with status 1 and print no flags on the standard output.", "quantifier": "for all command lines, machines, versions of compiler and linker", "why_tests_cant": "A test runs the compilers that are installed, on one machine, with the options in one order; the claim is about every compiler, every subset of accepted flags and every way of writing the command line.", "anchors": ["src/ulpconfig.sh.in:91-125", "src/ulpconfig.sh.in:127-175", "src/ulpconfig.sh.in:177-266", "man/man8/ulpconfig.8"]}
{"id": "C219", "title": "ulpatch_test runs exactly the selected tests", "statement": "With --filter only the tests whose name category.name contains one of the texts are run (all of them if there is no --filter), and those that contain a text of --skip are not; they are run one after the other, each once, and with --error-exit up to the first that fails. With --list-tests the same tests are listed and none is run.", "quantifier": "for all sets of tests, texts of --filter and --skip, results of the tests (also depending on the tests before)", "why_tests_cant": "The test program cannot check its own selection; the claim is about every set of tests and every combination of the options.", "anchors": ["src/tests/main.c:133-182", "src/tests/main.c:474-498", "src/tests/main.c:566-612", "src/tests/engine/test.c:18-52"]}
{"id": "C220", "title": "The summary and the status of ulpatch_test tell the truth about the tests that were run", "statement": "The number of successes, the number of failures and the list of failed tests shown at the end are those of the tests that were run, a test that crashes counting as failed and one that is marked as skipped as passed whatever it does; the exit status is 0 if and only if no test that was run failed, and then (without --error-exit and --list-tests) every selected test has been run and has passed.", "quantifier": "for all sets of tests, options and results, crashes included", "why_tests_cant": "Continuous integration relies on the status; that no combination of results and options gives a wrong one cannot be tried out.", "anchors": ["src/tests/main.c:500-564", "src/tests/main.c:614-646", "src/tests/main.c:981", "src/tests/test-api.h:26-70"]}
{"id": "C221", "title": "ulpatch_test plays the roles named by -r", "statement": "The roles named by the last -r, one or several with commas between them, are played in their order; a text that names no role, or the tester among several roles, is refused with an error before any role is played.", "quantifier": "for all texts and all sequences of -r options", "why_tests_cant": "The texts are arbitrary; the tests use four of them.", "anchors": ["src/tests/main.c:193-224", "src/tests/main.c:369-371", "src/tests/main.c:742-780", "src/tests/main.c:954-975"]}
