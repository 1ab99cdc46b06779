# Formal model of ulpatch: design

## Method

Everything is Rocq (Coq 8.16.1), standard library only.  For each area of the code there
are up to four kinds of files in `rocq/theories/`:

* `<Area>Model.v`: Gallina transcription of the C functions, definition by definition, each
  with a comment citing file and lines in `/repo` and any simplification.
* `<Area>Spec.v`: small independent vocabulary in which the properties are stated (what an
  instruction does, what a loader maps, what a sorted sequence is; no model helpers).
* `<Area>Proofs.v` and other names: lemmas.
* `<Area>Props.v`: the property theorems (`C<nn>_...`), each with `Print Assumptions` below
  it and an `Example` showing that its hypotheses can be met by a non-trivial instance
  (refutations carry their own witness).

Conventions

* Machine words are `Z` with explicit `mod 2^64` / `mod 2^32`; signed reinterpretation is
  explicit.  Bytes are `Z` in `[0,256)`.
* Memory is a total function `Z -> Z`; which accesses are possible is a matter of the
  oracle (a read or write request fails or transfers a given number of bytes).
* Pointer structures (rb-tree, list, callback chain) are heaps with a liveness predicate; a
  dereference of a null, absent or released node is the distinct outcome `None`.
* System calls and other external effects are oracles (function arguments or the record
  `env`): a theorem quantifies over every behaviour of the oracle, or states its condition
  on it as a hypothesis.
* Loops without a structural measure get fuel; running out of fuel is a distinct outcome and
  the theorems show that it does not happen.
* Names of theorems: `C<nn>_name` for a full proof, `..._partial` if it proves less than the
  statement in `properties.jsonl` (what is missing is said beside it), `..._refuted` if the
  faithful model violates the statement (witness).

## Per property

| id | modelled | proof | status |
|----|----------|-------|--------|
| C01 Ordered index stays a balanced search tree under insertion | RbModel: rb_insert_node, __rb_insert on a pointer heap with parent links and colours | separation-style representation predicate, zipper for the path, induction over the rebalancing rounds; sequences by induction | proved |
| C02 Ordered index lookup is exact | RbModel: rb_search_node | search-tree invariant; fuel discharged by the height bound of the red-black invariant | proved |
| C03 Removing an element from the ordered index removes only that element | RbModel: __rb_erase, ____rb_erase_color | case analysis per rebalancing case, induction on the path | proved |
| C04 Walking the ordered index visits every element once, in order | RbModel: rb_first/next/last/prev, postorder | climbing invariant over parent links | proved |
| C05 Destroying an ordered index releases every node exactly once and never touches a released node | RbModel: rb_destroy; the callback removes the node from the heap | loop invariant "forest still to visit" | proved |
| C06 Doubly linked lists behave like sequences | ListModel: list.h on a pointer heap | representation predicate for circular lists | proved |
| C07 List sort is a stable sort | ListModel: list_sort with its pending lists | invariant over the count-controlled pending stack | proved |
| C08 Address to mapping lookup is exact | VmaModel: insert_vma, find_vma, find_vma_span_area, next_vma, read_one, get_vma_type, perms/prot/flags; the text of /proc/PID/maps after parsing | instances of the index theorems with two comparators; induction over the walk; strings by induction | proved |
| C09 The hole chosen for a new patch is free | VmaModel: insert_vma, find_vma, find_vma_span_area, next_vma, read_one, get_vma_type, perms/prot/flags; the text of /proc/PID/maps after parsing | instances of the index theorems with two comparators; induction over the walk; strings by induction | proved |
| C10 Permission strings, protection bits and segment flags agree | VmaModel: insert_vma, find_vma, find_vma_span_area, next_vma, read_one, get_vma_type, perms/prot/flags; the text of /proc/PID/maps after parsing | instances of the index theorems with two comparators; induction over the walk; strings by induction | proved |
| C11 Patch mappings are recognised after re-opening the process | VmaModel: insert_vma, find_vma, find_vma_span_area, next_vma, read_one, get_vma_type, perms/prot/flags; the text of /proc/PID/maps after parsing | instances of the index theorems with two comparators; induction over the walk; strings by induction | proved |
| C12 Symbol lookup by name returns the first registered symbol of that name | SymModel: task/symbol.c with duplicate chains and reference counts | abstraction to the list of registrations; ownership invariant | proved |
| C13 Symbol lookup by address is exact | SymModel: task/symbol.c with duplicate chains and reference counts | abstraction to the list of registrations; ownership invariant | partial |
| C14 Releasing the symbol tables frees every registered symbol exactly once | SymModel: task/symbol.c with duplicate chains and reference counts | abstraction to the list of registrations; ownership invariant | proved |
| C15 x86-64 relocations store the psABI value for the target process | X86RelocModel: apply_relocate_add of x86-64 on a byte image | per-type lemma, induction over the entries | proved |
| C16 x86-64 absolute 32-bit relocations never silently truncate | X86RelocModel: apply_relocate_add of x86-64 on a byte image | per-type lemma, induction over the entries | proved |
| C17 x86-64 PC-relative 32-bit relocations never silently truncate | X86RelocModel: apply_relocate_add of x86-64 on a byte image | per-type lemma, induction over the entries | partial |
| C18 x86-64 relocation refuses already relocated fields | X86RelocModel: apply_relocate_add of x86-64 on a byte image | per-type lemma, induction over the entries | proved |
| C19 Generated x86-64 call/jump instructions reach their destination | InsnModel: text_gen_insn, jump entries; InsnSpec: decoder and executor written from the manuals | symbolic execution | proved |
| C20 The 16-byte jump entry transfers control to the replacement function (x86-64) | InsnModel: text_gen_insn, jump entries; InsnSpec: decoder and executor written from the manuals | symbolic execution | proved |
| C21 The 16-byte jump entry transfers control to the replacement function (aarch64) | InsnModel: text_gen_insn, jump entries; InsnSpec: decoder and executor written from the manuals | symbolic execution | proved |
| C22 aarch64 immediate fields round-trip and leave the rest of the instruction alone | A64Model: arch/aarch64/insn.c, patch.c | bit-level lemmas, induction over the entries | proved |
| C23 aarch64 immediate relocations detect overflow exactly | A64Model: arch/aarch64/insn.c, patch.c | bit-level lemmas, induction over the entries | proved |
| C24 aarch64 MOVW relocations build the requested 16-bit slice | A64Model: arch/aarch64/insn.c, patch.c | bit-level lemmas, induction over the entries | proved |
| C25 aarch64 data relocations detect overflow exactly | A64Model: arch/aarch64/insn.c, patch.c | bit-level lemmas, induction over the entries | proved |
| C26 aarch64 patches with overflowing relocations are rejected | A64Model: arch/aarch64/insn.c, patch.c | bit-level lemmas, induction over the entries | partial |
| C27 Generated aarch64 branches reach their destination | A64Model: arch/aarch64/insn.c, patch.c | bit-level lemmas, induction over the entries | partial |
| C28 Patch then unpatch restores the process | PaModel/PaHist: init_patch, kick_target_process, delete_patch, load_patch, vma_load_ulp; sessions as events of a history | invariant over histories; every prefix of target effects is a crash point | proved |
| C29 Stacked patches unwind in LIFO order | PaModel/PaHist: init_patch, kick_target_process, delete_patch, load_patch, vma_load_ulp; sessions as events of a history | invariant over histories; every prefix of target effects is a crash point | proved |
| C30 Applying a patch touches only the image mapping and 16 bytes of the function | PaModel/PaHist: init_patch, kick_target_process, delete_patch, load_patch, vma_load_ulp; sessions as events of a history | invariant over histories; every prefix of target effects is a crash point | partial |
| C31 The original code is saved in the target before it is overwritten | PaModel/PaHist: init_patch, kick_target_process, delete_patch, load_patch, vma_load_ulp; sessions as events of a history | invariant over histories; every prefix of target effects is a crash point | partial |
| C32 Patch identifiers are unique and increasing over sessions | PaModel/PaHist: init_patch, kick_target_process, delete_patch, load_patch, vma_load_ulp; sessions as events of a history | invariant over histories; every prefix of target effects is a crash point | proved |
| C33 The same patch is not applied twice | PaModel/PaHist: init_patch, kick_target_process, delete_patch, load_patch, vma_load_ulp; sessions as events of a history | invariant over histories; every prefix of target effects is a crash point | partial |
| C34 Applying and removing patches in one session behaves like in separate sessions | PaModel/PaHist: init_patch, kick_target_process, delete_patch, load_patch, vma_load_ulp; sessions as events of a history | invariant over histories; every prefix of target effects is a crash point | partial |
| C35 A malformed patch file is never accepted by the file loader | LdModel: alloc_patch_file, setup_load_info, rewrite_section_headers, find_sec, simplify_symbols, metadata | byte-level images, loop inductions | partial |
| C36 Section data of an accepted patch lies inside the patch image | LdModel: alloc_patch_file, setup_load_info, rewrite_section_headers, find_sec, simplify_symbols, metadata | byte-level images, loop inductions | partial |
| C37 Section lookup by name is exact | LdModel: alloc_patch_file, setup_load_info, rewrite_section_headers, find_sec, simplify_symbols, metadata | byte-level images, loop inductions | proved |
| C38 A patch with unresolved strong symbols is rejected | LdModel: alloc_patch_file, setup_load_info, rewrite_section_headers, find_sec, simplify_symbols, metadata | byte-level images, loop inductions | partial |
| C39 The patch metadata strings are parsed as written | LdModel: alloc_patch_file, setup_load_info, rewrite_section_headers, find_sec, simplify_symbols, metadata | byte-level images, loop inductions | proved |
| C40 The patch metadata record written by the macro is read back field by field | LdModel: alloc_patch_file, setup_load_info, rewrite_section_headers, find_sec, simplify_symbols, metadata | byte-level images, loop inductions | proved |
| C41 Remote system calls leave the target's code unchanged | ScModel: task_syscall and its wrappers, attach/detach, memcpy_to/from_task, with failing requests and signals as oracle | case analysis over all oracles; ScSpec: SYSCALL/INT3, SVC/BRK machine | proved |
| C42 Remote system calls leave the target's registers unchanged | ScModel: task_syscall and its wrappers, attach/detach, memcpy_to/from_task, with failing requests and signals as oracle | case analysis over all oracles; ScSpec: SYSCALL/INT3, SVC/BRK machine | partial |
| C43 Remote system calls pass number and arguments in the right registers | ScModel: task_syscall and its wrappers, attach/detach, memcpy_to/from_task, with failing requests and signals as oracle | case analysis over all oracles; ScSpec: SYSCALL/INT3, SVC/BRK machine | proved |
| C44 Standard descriptors of the target are never closed or truncated | ScModel: task_syscall and its wrappers, attach/detach, memcpy_to/from_task, with failing requests and signals as oracle | case analysis over all oracles; ScSpec: SYSCALL/INT3, SVC/BRK machine | proved |
| C45 Failing remote system calls are reported to the caller | ScModel: task_syscall and its wrappers, attach/detach, memcpy_to/from_task, with failing requests and signals as oracle | case analysis over all oracles; ScSpec: SYSCALL/INT3, SVC/BRK machine | partial |
| C46 Byte strings round-trip through their textual form | TextModel: utils/string.c, elf/note.c, macros.h, str2verbose | induction on strings, modular arithmetic | proved |
| C47 Parsing byte strings never writes outside the destination buffer | TextModel: utils/string.c, elf/note.c, macros.h, str2verbose | induction on strings, modular arithmetic | partial |
| C48 Comma lists are split into their non-empty items in order | TextModel: utils/string.c, elf/note.c, macros.h, str2verbose | induction on strings, modular arithmetic | proved |
| C49 Build ids are printed faithfully and within the buffer | TextModel: utils/string.c, elf/note.c, macros.h, str2verbose | induction on strings, modular arithmetic | proved |
| C50 Sizes and addresses given by the user are parsed to the number they denote | TextModel: utils/string.c, elf/note.c, macros.h, str2verbose | induction on strings, modular arithmetic | proved |
| C51 Alignment macros round to multiples | TextModel: utils/string.c, elf/note.c, macros.h, str2verbose | induction on strings, modular arithmetic | proved |
| C52 ELF header validation is exact | ElfModel, ElfFile: ehdr.c, symbol.c, symbol-bfd.c, open.c; libelf/libbfd as inputs | case analysis, index refinement, induction over histories of opens and closes | proved |
| C53 ELF symbol index lookup distinguishes kinds and returns the first symbol | ElfModel, ElfFile: ehdr.c, symbol.c, symbol-bfd.c, open.c; libelf/libbfd as inputs | case analysis, index refinement, induction over histories of opens and closes | proved |
| C54 Symbol name trimming stays inside its buffer | ElfModel, ElfFile: ehdr.c, symbol.c, symbol-bfd.c, open.c; libelf/libbfd as inputs | case analysis, index refinement, induction over histories of opens and closes | partial |
| C55 Useless symbols are filtered without losing or reordering the others | ElfModel, ElfFile: ehdr.c, symbol.c, symbol-bfd.c, open.c; libelf/libbfd as inputs | case analysis, index refinement, induction over histories of opens and closes | proved |
| C56 Re-opening an ELF file that is in use is safe | ElfModel, ElfFile: ehdr.c, symbol.c, symbol-bfd.c, open.c; libelf/libbfd as inputs | case analysis, index refinement, induction over histories of opens and closes | partial |
| C57 Auxiliary vector parsing reports exactly what the kernel provided | MiscModel: auxv.c, callback.c, log.c, args-common.c, aarch64/ftrace.c | induction, case analysis | proved |
| C58 Callbacks run once each in registration order | MiscModel: auxv.c, callback.c, log.c, args-common.c, aarch64/ftrace.c | induction, case analysis | proved |
| C59 Log level names and filtering | MiscModel: auxv.c, callback.c, log.c, args-common.c, aarch64/ftrace.c | induction, case analysis | proved |
| C60 Validated code modification never overwrites unexpected code (aarch64) | MiscModel: auxv.c, callback.c, log.c, args-common.c, aarch64/ftrace.c | induction, case analysis | partial |
| C61 The x86-64 tracing trampoline is transparent | TrModel: the assembly of both mcount.S on a small machine, abstract hook | symbolic execution | proved |
| C62 The x86-64 return trampoline preserves the return value | TrModel: the assembly of both mcount.S on a small machine, abstract hook | symbolic execution | proved |
| C63 The aarch64 tracing trampolines are transparent | TrModel: the assembly of both mcount.S on a small machine, abstract hook | symbolic execution | proved |
| C64 Mapping a file at a user-given address never overlaps an existing mapping | CmdModel: ultask.c, task/memcpy.c | case analysis over the index and ScModel theorems | partial |
| C65 Changing protection of a region inside one mapping is accepted | CmdModel: ultask.c, task/memcpy.c | case analysis over the index and ScModel theorems | partial |
| C66 The private directory of a patched process is kept while it is patched | FsModel: utils/file.c, private directory of core.c, on an abstract file system | induction over files, trees and the walk over mappings | proved |
| C67 File copy never overwrites and copies exactly | FsModel: utils/file.c, private directory of core.c, on an abstract file system | induction over files, trees and the walk over mappings | partial |
| C68 Load bias makes symbol addresses right | PkModel: vma_peek_elf_hdrs, vma_free_elf, match_vma_phdr | modular arithmetic; loader semantics in PkSpec | partial |
| C69 aarch64 relocation stores the value the ELF ABI asks for | A64Model: arch/aarch64/insn.c, patch.c | bit-level lemmas, induction over the entries | partial |
| C70 A destroyed ordered index is empty | RbModel: rb_destroy; the callback removes the node from the heap | loop invariant "forest still to visit" | partial |
| C71 Replacing an element of the ordered index in place | RbModel: rb_replace_node | representation predicate | proved |
| C72 Refreshing the memory map gives the current map | VmaModel: insert_vma, find_vma, find_vma_span_area, next_vma, read_one, get_vma_type, perms/prot/flags; the text of /proc/PID/maps after parsing | instances of the index theorems with two comparators; induction over the walk; strings by induction | partial |
| C73 Mappings of one object share a leader | VmaModel: insert_vma, find_vma, find_vma_span_area, next_vma, read_one, get_vma_type, perms/prot/flags; the text of /proc/PID/maps after parsing | instances of the index theorems with two comparators; induction over the walk; strings by induction | proved |
| C74 Iterating a memory map | VmaModel: insert_vma, find_vma, find_vma_span_area, next_vma, read_one, get_vma_type, perms/prot/flags; the text of /proc/PID/maps after parsing | instances of the index theorems with two comparators; induction over the walk; strings by induction | proved |
| C75 Files of the user are not taken for patches | VmaModel: insert_vma, find_vma, find_vma_span_area, next_vma, read_one, get_vma_type, perms/prot/flags; the text of /proc/PID/maps after parsing | instances of the index theorems with two comparators; induction over the walk; strings by induction | partial |
| C76 Every registered symbol is released with the tables | SymModel: task/symbol.c with duplicate chains and reference counts | abstraction to the list of registrations; ownership invariant | partial |
| C77 The target is never left stopped by mapping or unmapping a patch | PaModel/PaHist: init_patch, kick_target_process, delete_patch, load_patch, vma_load_ulp; sessions as events of a history | invariant over histories; every prefix of target effects is a crash point | partial |
| C78 Code that could not be read is not overwritten | ScModel: task_syscall and its wrappers, attach/detach, memcpy_to/from_task, with failing requests and signals as oracle | case analysis over all oracles; ScSpec: SYSCALL/INT3, SVC/BRK machine | partial |
| C79 Splitting a comma list returns the number of items | TextModel: utils/string.c, elf/note.c, macros.h, str2verbose | induction on strings, modular arithmetic | partial |
| C80 Printing a byte sequence never writes outside the text buffer | TextModel: utils/string.c, elf/note.c, macros.h, str2verbose | induction on strings, modular arithmetic | proved |
| C81 A negative buffer length is refused by the build id printer | TextModel: utils/string.c, elf/note.c, macros.h, str2verbose | induction on strings, modular arithmetic | partial |
| C82 A malformed patch file cannot make the tool leave the patch image | LdModel: alloc_patch_file, setup_load_info, rewrite_section_headers, find_sec, simplify_symbols, metadata | byte-level images, loop inductions | partial |
| C83 Every relocation section of the patch is applied exactly once and in order | LdModel: alloc_patch_file, setup_load_info, rewrite_section_headers, find_sec, simplify_symbols, metadata | byte-level images, loop inductions | proved |
| C84 The whole patch file is loaded | LdModel: alloc_patch_file, setup_load_info, rewrite_section_headers, find_sec, simplify_symbols, metadata | byte-level images, loop inductions | partial |
| C85 A successful patch redirects the function it names to the function in the patch | PaModel/PaHist: init_patch, kick_target_process, delete_patch, load_patch, vma_load_ulp; sessions as events of a history | invariant over histories; every prefix of target effects is a crash point | partial |
| C86 Relocating an x86-64 patch writes only inside the patch image | X86RelocModel: apply_relocate_add of x86-64 on a byte image | per-type lemma, induction over the entries | partial |
| C87 Every accepted x86-64 relocation is applied as the psABI prescribes | X86RelocModel: apply_relocate_add of x86-64 on a byte image | per-type lemma, induction over the entries | partial |
| C88 A failed patch attempt leaves the function's code as it was | PaModel/PaHist: init_patch, kick_target_process, delete_patch, load_patch, vma_load_ulp; sessions as events of a history | invariant over histories; every prefix of target effects is a crash point | partial |
| C89 If the tool dies while applying a patch, a later unpatch leaves the function intact | PaModel/PaHist: init_patch, kick_target_process, delete_patch, load_patch, vma_load_ulp; sessions as events of a history | invariant over histories; every prefix of target effects is a crash point | partial |
| C90 Symbol address lookup in an object file | ElfModel, ElfFile: ehdr.c, symbol.c, symbol-bfd.c, open.c; libelf/libbfd as inputs | case analysis, index refinement, induction over histories of opens and closes | proved |
| C91 Any object file can be opened for its symbols | ElfModel, ElfFile: ehdr.c, symbol.c, symbol-bfd.c, open.c; libelf/libbfd as inputs | case analysis, index refinement, induction over histories of opens and closes | partial |
| C92 A plain name denotes the default version of a versioned symbol | ElfModel, ElfFile: ehdr.c, symbol.c, symbol-bfd.c, open.c; libelf/libbfd as inputs | case analysis, index refinement, induction over histories of opens and closes | partial |
| C93 Statically linked programs can be examined | MiscModel: auxv.c, callback.c, log.c, args-common.c, aarch64/ftrace.c | induction, case analysis | partial |
| C94 Reading the auxiliary vector terminates | MiscModel: auxv.c, callback.c, log.c, args-common.c, aarch64/ftrace.c | induction, case analysis | partial |
| C95 The log level option understands exactly the documented levels | MiscModel: auxv.c, callback.c, log.c, args-common.c, aarch64/ftrace.c | induction, case analysis | partial |
| C96 Floating point arguments survive tracing | TrModel: the assembly of both mcount.S on a small machine, abstract hook | symbolic execution | partial |
| C97 Floating point results survive tracing | TrModel: the assembly of both mcount.S on a small machine, abstract hook | symbolic execution | partial |
| C98 Remote operations ask the kernel for what they promise | ScModel: task_syscall and its wrappers, attach/detach, memcpy_to/from_task, with failing requests and signals as oracle | case analysis over all oracles; ScSpec: SYSCALL/INT3, SVC/BRK machine | proved |
| C99 Every v counts for the verbosity | TextModel: utils/string.c, elf/note.c, macros.h, str2verbose | induction on strings, modular arithmetic | partial |
| C100 The map command reports failure when the mapping was refused | CmdModel: ultask.c, task/memcpy.c | case analysis over the index and ScModel theorems | partial |
| C101 The unmap command unmaps exactly the mapping asked for | CmdModel: ultask.c, task/memcpy.c | case analysis over the index and ScModel theorems | partial |
| C102 The jump command redirects exactly one place | CmdModel: ultask.c, task/memcpy.c | case analysis over the index and ScModel theorems | proved |
| C103 A dump is the memory or an error | CmdModel: ultask.c, task/memcpy.c | case analysis over the index and ScModel theorems | partial |
| C104 Reading a string yields the string, or a prefix of limited length | CmdModel: ultask.c, task/memcpy.c | case analysis over the index and ScModel theorems | partial |
| C105 The exit status of the task tool tells whether a command failed | CmdModel: ultask.c, task/memcpy.c | case analysis over the index and ScModel theorems | partial |
| C106 Removing a directory tree removes exactly that tree | FsModel: utils/file.c, private directory of core.c, on an abstract file system | induction over files, trees and the walk over mappings | partial |
| C107 Loading a file into a buffer stays within the buffer and the file | FsModel: utils/file.c, private directory of core.c, on an abstract file system | induction over files, trees and the walk over mappings | partial |
| C108 Creating a file never changes an existing one | FsModel: utils/file.c, private directory of core.c, on an abstract file system | induction over files, trees and the walk over mappings | partial |
| C109 Tracing leaves the rest of the process alone | ToolModel: ulpatch.c, ulftrace.c, ulpinfo.c around PaModel and FsModel | composition of the theorems on sessions and files | partial |
| C110 The object named on the command line is the one used | ToolModel: ulpatch.c, ulftrace.c, ulpinfo.c around PaModel and FsModel | composition of the theorems on sessions and files | partial |
| C111 A dry run changes nothing | ToolModel: ulpatch.c, ulftrace.c, ulpinfo.c around PaModel and FsModel | composition of the theorems on sessions and files | partial |
| C112 Looking at a patch file changes no file | ToolModel: ulpatch.c, ulftrace.c, ulpinfo.c around PaModel and FsModel | composition of the theorems on sessions and files | partial |
| C113 No released memory when a process is opened and closed | PkModel: vma_peek_elf_hdrs, vma_free_elf, match_vma_phdr | modular arithmetic; loader semantics in PkSpec | partial |
| C114 What cannot be read is not used | PkModel: vma_peek_elf_hdrs, vma_free_elf, match_vma_phdr | modular arithmetic; loader semantics in PkSpec | partial |
| C115 The mapping of a segment is recognised | PkModel: vma_peek_elf_hdrs, vma_free_elf, match_vma_phdr | modular arithmetic; loader semantics in PkSpec | proved |
| C116 The hex dump shows the bytes | ShModel: memshow character by character, with the offsets it reads | column arithmetic over the lines; layout specification in ShSpec | proved |
| C117 The hex dump reads only the bytes given | ShModel: memshow character by character, with the offsets it reads | column arithmetic over the lines; layout specification in ShSpec | partial |
| C118 The hex dump returns what it wrote | ShModel: memshow character by character, with the offsets it reads | column arithmetic over the lines; layout specification in ShSpec | partial |
| C119 Bytes shown can be read back | ShModel fmembytes, print_bytes; TextModel strbytes2mem | equality with the text form of C46 | proved |
| C120 Files are shown as they are | ShModel fprint_file (fgets of 31, %s), fprint_fd | induction on the chunks | partial |
| C121 The kind of a file | ShModel ftype, _mmap_file, _munmap_file with the open descriptors | case analysis | proved |
| C122 A file that cannot be mapped leaves nothing behind | ShModel ftype, _mmap_file, _munmap_file with the open descriptors | case analysis | partial |
| C123 The files of a process | PrModel maps_path, mem_path, read_proc_pid_symlink | length of a decimal number; arithmetic on buffers | proved |
| C124 The name of a process | PrModel scan_s, proc_pid_comm | induction on blanks and words | partial |
| C125 The link text is a string | PrModel maps_path, mem_path, read_proc_pid_symlink | length of a decimal number; arithmetic on buffers | partial |
| C126 User and group identifiers | PrModel scan_d, scan_ids, status_loop, proc_get_pid_status, print_task_status | induction on the lines; decimal numbers read back | proved |
| C127 Identifiers are shown as they are | PrModel scan_d, scan_ids, status_loop, proc_get_pid_status, print_task_status | induction on the lines; decimal numbers read back | partial |
| C128 Every thread once | PrModel load_threads, load_fds, dump_threads, dump_fds; ShModel dir_iter | induction on the directory | proved |
| C129 Every descriptor with its target | PrModel load_threads, load_fds, dump_threads, dump_fds; ShModel dir_iter | induction on the directory | partial |
| C130 The current process is never a closed one | PrModel open_task, close_task, get_current_task | invariant over all reachable states of the tool | proved |
| C131 The current process is the last one opened that is still open | PrModel open_task, close_task, get_current_task | invariant over all reachable states of the tool | partial |
| C132 Why a process could not be opened | PrModel open_task, open_rest, close_task with the kernel as an oracle | case analysis over the steps | partial |
| C133 A process that ends while it is opened | PrModel open_task, open_rest, close_task with the kernel as an oracle | case analysis over the steps | partial |
| C134 A failed opening leaves the private directory alone | PrModel open_task, close_task; FsModel clean_task_proc, open_proc | the steps compose: each changes only the three entries | partial |
| C135 Descriptors are returned | PrModel open_task, open_rest, close_task with the kernel as an oracle | case analysis over the steps | partial |
| C136 Only what is asked for is loaded | PrModel open_task, open_rest, close_task with the kernel as an oracle | case analysis over the steps | partial |
| C137 The memory map is read as the kernel shows it | MpModel scan_line, read_maps | induction on the lines: each number and word of a line is read back; counterexamples by computation | partial |
| C138 A deleted file is not taken for the file now there | MpModel scan_line, read_maps | induction on the lines: each number and word of a line is read back; counterexamples by computation | partial |
| C139 One mapping for each line of the map | MpModel scan_line, read_maps | induction on the lines: each number and word of a line is read back; counterexamples by computation | partial |
| C140 A target cannot overflow the buffers of the tool by its memory map | MpModel scan_line, read_maps | induction on the lines: each number and word of a line is read back; counterexamples by computation | partial |
| C141 Addresses are looked up exactly in the map as read | MpModel read_maps; VmaModel read_task_vmas, find_vma | composition with C08 | proved |
| C142 Page size and page shift agree | MpModel ulp_page_size, ulp_page_shift | induction on the shift loop | proved |
| C143 The listing of mappings tells them apart | MpModel print_vma, print_vma_root | induction on the list: lines split at newlines, columns of fixed width | proved |
| C144 The build id is the last id note of the file | EcModel getnote, elf_object_note, notes_loop, handle_notes, sections_loop, elf_contents | induction on the notes and on the sections | proved |
| C145 Note sections cannot make the tool leave its memory | EcModel handle_notes | induction on the bytes left; witness of 2^31 bytes, never computed | partial |
| C146 Malformed ELF files are refused without harm | EcModel elf_contents | no invalid access by C145, C147; three witnesses | partial |
| C147 A symbol looked up is the first of its name and kind | EcModel symtab_loop, link_symbol, find_kind, handle_sections | loop as a fold over the symbols; invariant of the index over the symbols seen | proved |
| C148 Files that call a tracing function are recognised | EcModel symtab_loop, is_ftrace_entry | the same invariant; witness | partial |
| C149 A symbol knows the segments it is in | EcModel sym_phdrs, holds | from C147; witness | partial |
| C150 The listing of symbols tells them apart | EcModel fprint_sym | columns split at blanks; witness | partial |
| C151 Symbol versions are found | EcModel sym_version | by cases; witness | partial |
| C152 The listing of program headers tells them apart | EcModel print_phdr | columns of fixed width; witness | partial |
| C153 The listing of the ELF header tells it | EcModel print_ehdr | lines split at newlines; witness | partial |
| C154 Options can be written in every documented form and order | ArModel scan (getopt_long) | independent relation says; induction on the length of the line, both directions | proved |
| C155 An unusable command line does nothing and is reported | ArModel the four parse_config | exits of all steps, values of the tables | proved |
| C156 The process acted on is the one named | ArModel the four parse_config | projection of runs to the last option; witness | partial |
| C157 ulpatch does what is asked, and all of it | ArModel ulpatch_config | projection of runs; witness | partial |
| C158 An existing output file is kept unless forced | ArModel ultask_config | projection of runs | proved |
| C159 The target is opened read-only unless a change is asked for | ArModel ultask_config | projection of runs | proved |
| C160 The words of --mprotect can come in any order | ArModel prot_option | induction on the sub-options; permutations | proved |
| C161 The length for --mprotect can be written as the help says | ArModel prot_option | C160 and C50; witness | partial |
| C162 Any file can be mapped with --map | ArModel map_option | induction on the sub-options; no argument yields a comma | partial |
| C163 The file mapped is the one meant | ArModel map_path | by cases; witnesses | partial |
| C164 A call of ulpatch() does not depend on earlier calls | ArModel ulpatch_again | simulation between two runs; witness | partial |
| C165 The directory for all processes can be used by every user | ArModel env_init | by cases on bits; witness | partial |
| C166 ulpinfo shows everything asked for | ArModel ulpinfo_config | projection of runs; witness | partial |
| C167 --dump dumps what is named | ArModel dump_option | induction on the sub-options; witness | partial |
| C168 A patched process behaves like the program with its functions replaced | RnSpec (machine of threads, replaced program), RnMach (x86_64 and aarch64 from InsnSpec), RnHist on PaHist | stuttering simulation over interleaved runs; invariant of histories; witness | partial |
| C169 A patch applied while a thread is inside the function does no harm | RnSpec machine, PaModel memories | simulation; witness runs | partial |
| C170 A patch removed while a thread is inside the replacement does no harm | RnSpec machine, PaModel memories | simulation; witness runs | partial |
| C171 No thread sees a half written jump | RnSpec machine, PaModel memories | simulation; witness runs | partial |
| C172 Two tools at work on one process do not disturb each other | PaModel steps of two tools interleaved | invariant; witness | partial |
| C173 A string written into a process is there | CmdModel strcpy_to_task, strcpy_from_task | case analysis of the write, composed with C104; witness | partial |
| C174 An applied patch is linked for its process | LdModel load_patch, X86RelocModel, PaModel do_patch; LkSpec (linked, linkable) reads the bytes of the file | invariants over the loops of symbols and relocations composed with C15, C38 and the process; witness | partial |
| C175 An applied patch is linked for its process on aarch64 | A64Model, LdModel load_patch, PaModel do_patch; LkSpec (linked, linkable) | the proof of C174 is generic in the architecture; composed with C69 and the frame of the aarch64 loop; witness | partial |
| C176 Which definition a name denotes in a process | RsModel (load_ulp_info_from_vma, file_load, task_load_vma_elf_syms, the loops of open_task, resolve_symbol) over LdModel, ElfModel, SymModel and RbModel | composition of the index lemma behind C90, the tree walk C04 and C12 by induction over the mappings; witnesses | proved |
| C177 A name denotes what the process itself would bind it to | RsModel (load_ulp_info_from_vma, file_load, task_load_vma_elf_syms, the loops of open_task, resolve_symbol) over LdModel, ElfModel, SymModel and RbModel | composition of the index lemma behind C90, the tree walk C04 and C12 by induction over the mappings; witnesses | partial |
| C178 Files a process has merely mapped do not change what names denote | RsModel (load_ulp_info_from_vma, file_load, task_load_vma_elf_syms, the loops of open_task, resolve_symbol) over LdModel, ElfModel, SymModel and RbModel | composition of the index lemma behind C90, the tree walk C04 and C12 by induction over the mappings; witnesses | partial |
| C179 Patches in a process do not change what names denote | RsModel (load_ulp_info_from_vma, file_load, task_load_vma_elf_syms, the loops of open_task, resolve_symbol) over LdModel, ElfModel, SymModel and RbModel | composition of the index lemma behind C90, the tree walk C04 and C12 by induction over the mappings; witnesses | partial |
| C180 The list of symbols shows every name once | DsModel list_all_symbols over SymModel and RbModel | the invariant behind C12 and the tree walk C04 | proved |
| C181 The list of symbols is in alphabetical order | DsModel list_all_symbols over SymModel and RbModel | the invariant behind C12 and the tree walk C04 | partial |
| C182 A disassembly shows all the code | DsModel fdisasm, run_disasm; capstone as an engine that decodes one instruction after the other (DsSpec) | induction over the instructions; witnesses | partial |
| C183 Disassembled memory is shown at its address | DsModel fdisasm, run_disasm; capstone as an engine that decodes one instruction after the other (DsSpec) | induction over the instructions; witnesses | partial |
| C184 Disassembled memory is that of the process | DsModel fdisasm, run_disasm; capstone as an engine that decodes one instruction after the other (DsSpec) | induction over the instructions; witnesses | partial |
| C185 Dumping the vdso | DsModel dump_vdso, CmdModel | composed with C103; witness | partial |
| C186 Signals do not disturb remote system calls | SgModel (wait loops with log), ScModel (task_syscall), SgSpec.runs_signals: a processor whose waits report signals before the system call runs | induction on the list of arriving signals; witnesses for SIGSTOP | partial |
| C187 Signals reach the process | SgModel.wait_log, attach_log (proved equal to the loops of ScModel without the log) | induction on the loop with an invariant on the first event of the rest of the log; witness for SIGTRAP and SIGSTOP | partial |
| C188 The list of patches shows every patch | LiModel (show_task_patch_info, vma_load_ulp) over LdModel and RsModel; localtime and strftime are an input | induction over the mappings with the facts behind C35 and C176; witness: a mapping of version 4 | partial |
| C189 The jump shown with a patch is its own | LiModel.print_jump over ScModel and DsModel | composed with C182; witnesses, one over the history of C28 | partial |
| C190 The C library of the process is found | LbModel (the choice in read_task_vmas, the test in open_task) over MpModel and VmaModel | composition with the lemma behind C137; the loop is the first match; witness | partial |
| C191 Built-in system calls of patches reach the kernel as written | AsModel: the asm statements of patch/asm.h as instruction sequences over registers and memory; the compiler as a choice of operand places, omission and pending stores; the kernel as an arbitrary function | symbolic execution of each statement for an arbitrary choice; step-wise run lemmas for the greeting; witnesses for the refutations | partial |
| C192 Built-in system calls of patches evaluate to the kernel's result | AsModel: the asm statements of patch/asm.h as instruction sequences over registers and memory; the compiler as a choice of operand places, omission and pending stores; the kernel as an arbitrary function | symbolic execution of each statement for an arbitrary choice; step-wise run lemmas for the greeting; witnesses for the refutations | partial |
| C193 Built-in system calls of patches disturb nothing else | AsModel: the asm statements of patch/asm.h as instruction sequences over registers and memory; the compiler as a choice of operand places, omission and pending stores; the kernel as an arbitrary function | symbolic execution of each statement for an arbitrary choice; step-wise run lemmas for the greeting; witnesses for the refutations | partial |
| C194 The built-in greeting writes its line | AsModel: the asm statements of patch/asm.h as instruction sequences over registers and memory; the compiler as a choice of operand places, omission and pending stores; the kernel as an arbitrary function | symbolic execution of each statement for an arbitrary choice; step-wise run lemmas for the greeting; witnesses for the refutations | partial |
| C195 The tracing tool settles what to trace and with what | ArModel: getopt_long, parse_config of the four tools | induction over the options of a command line; each setting is a fold over them | proved |
| C196 Shared options mean the same with every tool | ArModel: getopt_long, parse_config of the four tools | induction over the options of a command line; each setting is a fold over them | proved |
| C197 A summary of the process is shown exactly when nothing else is asked for | ArModel: getopt_long, parse_config of the four tools | induction over the options of a command line; each setting is a fold over them | proved |
| C198 Leaders in the list of mappings | `GrModel.leaders`, `listing`: insert_vma with the mapping before, and vma->leader | induction over the list: a mapping takes over the leader of the one before if the names agree | proved |
| C199 Mappings of segments are marked | `GrModel.peek_role` (the loops of vma_peek_elf_hdrs that `PkModel.peek` leaves out), `match_vma_phdr`, `relro_rest` | with one header per run the role of a mapping is a fold over its program headers; C115 for whole segments; page arithmetic; two concrete refutations | partial |
| C200 Address offset shown for a mapping | `GrModel.set_voffset`, `align_down` | fold over the program headers with uniqueness of the page; concrete refutation | partial |
| C201 Number of patches in the summary | `GrModel.print_task`, histories of `PaHist` | the invariant of C29 (identifiers are 1..n) and what opening a session reads back | proved |
| C202 Position independence in the summary | `GrModel.is_pie` | induction over the mappings; concrete refutation | partial |
| C203 Groups of mappings after a refresh | VmaModel.read_task_vmas with update_ulp (vma.c 321-405) | a refresh is shown to be a first reading of the new lines only; runs of the old map are matched with runs of the current one by induction on how the map grew; witnesses of one and two mappings | partial |
| C204 Names of mappings after a refresh | VmaModel.read_task_vmas with update_ulp (vma.c 321-405) | a refresh is shown to be a first reading of the new lines only; runs of the old map are matched with runs of the current one by induction on how the map grew; witnesses of one and two mappings | partial |
| C205 The listing of the auxiliary vector | AxModel: print_task_auxv (auxv.c 93-118) after load_task_auxv of MiscModel | composition of C57 with the lemmas on the texts of numbers | proved |
| C206 State of a file of the process | FxModel: task_fstat, task_prctl (syscall.c 392-429) on ScModel | composition of the theorems on task_syscall (C43); the processors and the kernel as in ScSpec | partial |
| C207 Process controls of the process | FxModel: task_fstat, task_prctl (syscall.c 392-429) on ScModel | composition of the theorems on task_syscall (C43); the processors and the kernel as in ScSpec | partial |
| C208 Opening any file as an object file is safe | BfModel: bfd_elf_open/file_load with the answers of libbfd as an oracle, the sizes of the vectors and of the copy, allocations as a list; bfd_elf_close over the trees of ElfModel | case analysis for opening; each tree holds the first node of each name (C05, C90), rb_destroy visits all of it; permutations of the list of allocations | partial |
| C209 Closing an object file gives back all of it | BfModel: bfd_elf_open/file_load with the answers of libbfd as an oracle, the sizes of the vectors and of the copy, allocations as a list; bfd_elf_close over the trees of ElfModel | case analysis for opening; each tree holds the first node of each name (C05, C90), rb_destroy visits all of it; permutations of the list of allocations | partial |
| C210 A file that cannot be opened leaves nothing behind | BfModel: bfd_elf_open/file_load with the answers of libbfd as an oracle, the sizes of the vectors and of the copy, allocations as a list; bfd_elf_close over the trees of ElfModel | case analysis for opening; each tree holds the first node of each name (C05, C90), rb_destroy visits all of it; permutations of the list of allocations | partial |
| C211 What is shown of a patch file is what is in it | UiModel: show_file_patch_info (ulpinfo.c 93-132) with print_ulp_strtab/author/license/info (patch.c 28-124) on setup_load_info of LdModel | inversion of setup_load_info for the sections, the lemmas on strings in the file and on the texts of numbers and disassemblies | partial |
| C212 A new patch gets a file of its own | TnModel: mkstemp (glibc) as a list of tried names, fmktempfile, fmktempname (file.c 260-282), __make_pid_ulpname and the files of init_patch (patch.c 149-175, 976-1038) on FsModel | induction on the tried names; composition with the lemmas on alloc_patch_file on files | partial |
| C213 Choosing a temporary name leaves no trace | TnModel: mkstemp (glibc) as a list of tried names, fmktempfile, fmktempname (file.c 260-282), __make_pid_ulpname and the files of init_patch (patch.c 149-175, 976-1038) on FsModel | induction on the tried names; composition with the lemmas on alloc_patch_file on files | partial |
| C214 Functions and variables are told apart by their sections | ClModel: asymbol_is_text, asymbol_is_data (symbol-bfd.c 132-148, 200-219) on section headers, with the flags SEC_CODE and SEC_DATA as libbfd derives them | bits of the flags; composition with C90_lookup: the first symbol that answers is one of the table | partial |
| C215 The call at the beginning of a function is found and replaced | FcModel: x86_64_func_callq_offset, aarch64_func_bl_offset, the table of empty instructions, ftrace_nop_replace, ftrace_call_replace | induction on the bytes or words before the call; the machines of InsnSpec and C19 for what the new call does | partial |
| C216 Author and license are shown as they were written | MtModel: the macros of meta.h, the strings of the assembler with their escape sequences, sections as the contributions one after the other; LdModel and UiModel for what reads them | induction on the text and on the macros: the first contribution is a prefix of the section; composition with C39 and the lemmas on strings in the file | partial |
| C217 Each replacement that a patch names is made | MtModel: the macros of meta.h, the strings of the assembler with their escape sequences, sections as the contributions one after the other; LdModel and UiModel for what reads them | induction on the text and on the macros: the first contribution is a prefix of the section; composition with C39 and the lemmas on strings in the file | partial |
| C218 The flags that ulpconfig prints are those asked for, for the compiler and linker named | UcModel: the script ulpconfig as a fold over the options that getopt(1) (ArModel.scan) finds; compiler and linker as oracles | C154_forms for the command line; induction on the options for the state after the loop; the words as an inductive relation on the text | partial |
| C219 ulpatch_test runs exactly the selected tests | RtModel: filters, should_skip, execute_one_test, launch_tester and main with the results of the tests as an oracle on the tests run before | the course of a run and its failures as inductive relations; invariant of the counters and of the list of failed tests by induction on the tests | partial |
| C220 The summary and the status of ulpatch_test tell the truth about the tests that were run | RtModel: filters, should_skip, execute_one_test, launch_tester and main with the results of the tests as an oracle on the tests run before | the course of a run and its failures as inductive relations; invariant of the counters and of the list of failed tests by induction on the tests | proved |
| C221 ulpatch_test plays the roles named by -r | RtModel: who_am_i with the list of roles kept between options, launch_mix | C48 for the text with commas; case analysis on the table of names, induction on the items | partial |

## False of the code

Statements of `properties.jsonl` that the faithful model violates. Each has a theorem
`…_refuted` with a concrete witness; what remains true is in the `_partial` (or unsuffixed)
theorems of the same property.

* **C13** (`C13_address_exact_refuted`, `C13_registered_found_refuted`): refuted both ways: the 64-bit difference is truncated to int, so a foreign address can be found and a registered one missed; partial: exact when all addresses lie within 2 GiB
* **C17** (`C17_x86_pc32_truncates_refuted`): refuted: PC32/PLT32 displacements are not range checked; the partial theorem shows the branch reaches the symbol when the displacement fits. Missing (false): rejection otherwise.
* **C26** (`C26_a64_overflow_rejected_refuted`, `C26_a64_uninitialised_refuted`): refuted: the overflow flag is uninitialised and never set again after an unchecked entry; partial: entries not preceded by an unchecked one are rejected, and nothing is rejected without cause
* **C27** (`C27_a64_branch_reaches_refuted`, `C27_a64_wrong_branch_refuted`): refuted: the pc parameter is 32 bits wide; partial: instruction addresses below 4 GiB
* **C30** (`C30_touches_refuted`): Refuted: failing to put borrowed library code back goes unnoticed. Partial: everything else, for any file and any failing call.
* **C31** (`C31_backup_refuted`): Refuted: a jump write cut short fails the attempt and the only copy of the code is unmapped. Partial: no short writes.
* **C33** (`C33_twice_refuted`): Refuted: unreadable mapping makes the patch unnoticed. Partial: readable mappings.
* **C34** (`C34_removal_refuted`, `C34_twice_refuted`): Refuted: removal in the same session always gives -ENOENT, and the same file is accepted twice.
* **C35** (`C35_malformed_accepted_refuted`): Refuted: the error of the section table check is dropped and 0 is returned with everything released. Partial: exact list of outcomes for files below 2 GiB.
* **C36** (`C36_sections_inside_refuted`): Refuted: offset + size wraps at 2^64. Partial: sections with offset + size < 2^64; frame and addresses in full.
* **C38** (`C38_unresolved_rejected_refuted`): Refuted: the result of an unresolved symbol is overwritten by a later resolved one. Partial: exact rule for the result, all symbol values, frame; the symbol table may not overlap the names and section headers it refers to.
* **C42** (`C42_registers_restored_refuted`): refuted: registers are not restored when waiting for the target or reading its registers fails; partial: restored when the call reports success or could not be started
* **C45** (`C45_failure_reported_malloc_refuted`, `C45_failure_reported_map_refuted`, `C45_failure_reported_truncate_refuted`): refuted for allocation (only -1 is taken for an error), for mapping the patch (error code stored as address) and for truncation (0 returned when the call cannot be made); partial: all other calls and failures are reported
* **C47** (`C47_strbytes2mem_bounds_refuted`): Refuted: the byte is stored before the length check, so one byte past the buffer can be written. Partial: never more than one byte too many, only on failure; success stays inside; the parser always ends.
* **C54** (`C54_name_refuted`): false as stated: a prefix of exactly the buffer size writes its terminator behind the buffer (C54_name_refuted); proved for shorter and longer prefixes and unversioned names.
* **C56** (`C56_shared_refuted`, `C56_literal_refuted`, `C56_leak_refuted`, `C56_many_refuted`): false as stated: no reference counting (C56_shared_refuted), string literal released (C56_literal_refuted), leaks (C56_leak_refuted), 16-bit handle counter (C56_many_refuted); proved for histories that open ordinary files once each.
* **C60** (`C60_validated_refuted`, `C60_reported_refuted`): false: a failed read counts as a match (C60_validated_refuted) and a failed write as success (C60_reported_refuted); proved when transfers are complete; unaligned addresses and confinement to the instruction proved for all failures.
* **C64** (`C64_overlap_refused_refuted`, `C64_free_accepted_refuted`): Refuted both ways: a mapping strictly inside the range is not noticed, and the byte after the range is tested too (C64_overlap_refused_refuted, C64_free_accepted_refuted). Proved: a refused range touches a mapping at its bytes or the next one, an accepted range overlaps only mappings that lie strictly inside it, a refusal changes nothing.
* **C65** (`C65_region_accepted_refuted`, `C65_hole_refused_refuted`): Refuted both ways: a region ending at the end of a mapping is refused, and only the ends are tested, so that holes are accepted. Proved: accepted iff the first byte and the byte after the region are mapped; a refusal changes nothing.
* **C67** (`C67_copy_exact_refuted`, `C67_directory_refuted`): Refuted: an error while writing ends the loop and the short copy is reported as success; a directory is copied to an empty file with success. Proved: refusals, nothing else changed, prefix always, exact without errors and under 2 GiB.
* **C68** (`C68_bias_refuted`): Refuted for files whose lowest segment does not begin at a page boundary. Proved: right exactly if the segment with the file header begins at the lowest address of all segments, a page boundary.
* **C69** (`C69_a64_reloc_value_refuted`, `C69_a64_call_refuted`): refuted for place-relative types (address of the image in the tool is used as place); partial: place-independent types are right, place-relative ones are right for the address in the tool; frame proved in full
* **C70** (`C70_rb_destroy_empties_refuted`): refuted: the root pointer is not reset and points to a released node; partial: the root is null afterwards iff the index was empty before
* **C72** (`C72_refresh_refuted`): refuted: records are never removed and a mapping whose range changed is dropped from the index; partial: exact when mappings were only added
* **C75** (`C75_foreign_names_refuted`): refuted: any name containing the prefix and the digits of the pid; partial: names lacking one of them are not patches
* **C76** (`C76_all_released_refuted`): refuted: a symbol equal to an earlier one in name and address is linked nowhere and leaks; partial: all released when no two agree in both
* **C77** (`C77_detached_refuted`): refuted: the remote open fails and the target stays attached; partial: detached whenever the open succeeded; unmapping always detaches
* **C78** (`C78_no_write_after_failed_read_refuted`): refuted: the failing read is ignored and uninitialised bytes are written back
* **C79** (`C79_item_count_refuted`): Refuted: zero is always returned. Partial: the value is right exactly when there is no item.
* **C81** (`C81_bfd_negative_length_refuted`): Refuted: the comparison is unsigned, so every negative length passes. Partial: right for all other lengths.
* **C82** (`C82_inside_image_refuted`): Refuted: e_shstrndx is not checked (nor sh_name, sh_offset, sh_link). Partial: defined for every well-formed file.
* **C84** (`C84_whole_file_refuted`): Refuted: the size goes through an int (a file of 2^32+64 bytes is loaded as 64 bytes). Partial: files below 2 GiB.
* **C85** (`C85_redirected_into_patch_refuted`): Refuted: an undefined symbol with the source name is taken, the function then jumps to itself. Partial: the recorded values are those of the names; the record may not overlap the symbol table.
* **C86** (`C86_inside_image_refuted`): Refuted: r_offset is not checked. Partial: when the entries lie inside the image.
* **C87** (`C87_tpoff_ignored_refuted`, `C87_got_refuted`): Refuted: TPOFF64/TPOFF32 are ignored, GOT types are handled as PC32 without a GOT slot. Partial: all other types.
* **C88** (`C88_failed_refuted`): Refuted: short write of the jump. Partial: no short writes.
* **C89** (`C89_crash_refuted`): Refuted: death between storing number/address and copying the code makes the next unpatch write zeros. Partial: from the copy on.
* **C91** (`C91_any_file_refuted`): false: a name with more than 256 bytes before the version dereferences NULL (C91_any_file_refuted); proved for shorter names.
* **C92** (`C92_default_version_refuted`): false: the first version in the table wins (C92_default_version_refuted); proved when only one version exists.
* **C93** (`C93_static_refuted`): false: AT_BASE 0 is an error (C93_static_refuted); proved for programs with an interpreter.
* **C94** (`C94_terminates_refuted`): false: a failing read is retried for ever because -1 is compared as unsigned (C94_terminates_refuted); proved if reads fail finitely often.
* **C95** (`C95_option_refuted`): false: 0 is refused, -5 and 7up are accepted (C95_option_refuted); proved for 1 to 7 and the names.
* **C96** (`C96_float_args_refuted`): false: vector registers are not saved (C96_float_args_refuted, both architectures); proved for hooks that do not change vector registers.
* **C97** (`C97_float_results_refuted`): false: only the first vector register is saved (C97_float_results_refuted); proved for the first one, and for all with hooks that do not change vector registers.
* **C99** (`C99_verbosity_refuted`): Refuted: a second -v option replaces the count of the first (witness -v -v gives 1). Proved: the letters of the last option are counted exactly.
* **C100** (`C100_map_reported_refuted`): Refuted: the result of the mapping request is not looked at (error values are not -1). Proved: success implies that attach, open and truncate succeeded and that the mapping was requested with the right arguments.
* **C101** (`C101_unmap_exact_refuted`, `C101_unmap_reported_refuted`): Refuted: the length is the size of the backing file when that exists, so that neighbours are unmapped too; the kernel's refusal is ignored. Proved: start is right, length is right when the file does not exist, unmapped addresses are refused without effect.
* **C103** (`C103_dump_failure_refuted`, `C103_dump_over_refuted`): Refuted: a failed read is ignored and garbage is written; a longer previous file keeps its tail. Proved: exact when the read succeeds and the previous content is not longer; other failures are reported; the process is unchanged.
* **C104** (`C104_read_string_refuted`): Refuted: a failing read leaves what was in the buffer. Proved when bytes can be read: exact copy incl. terminator for strings up to 1024, else the first 1025 bytes (without terminator).
* **C105** (`C105_exit_status_refuted`): Refuted: failures of dumps and redirections do not reach the exit status. Proved for changes of protection, mapping and unmapping.
* **C106** (`C106_remove_tree_refuted`): Refuted: symbolic links to directories are followed, files outside are removed and the tree stays. Proved exact for trees of regular files and directories by induction on the depth.
* **C107** (`C107_file_size_refuted`): Refuted for files of 2 GiB and more (int size becomes negative; the read is then unbounded). Proved below.
* **C108** (`C108_touch_refuted`): Refuted: failed writes are only logged. Proved otherwise.
* **C109** (`C109_others_stay_refuted`, `C109_trace_removed_refuted`): Refuted: when the trace patch cannot be set up, the patch the user had installed is removed and success reported; a successful trace patch is never removed. The partial theorem says what does hold.
* **C110** (`C110_object_refuted`): Refuted: the named object is ignored.
* **C111** (`C111_dry_run_refuted`, `C111_dry_removal_refuted`): Refuted: the flag is read by no tool; patching and removal take place.
* **C112** (`C112_check_clean_refuted`, `C112_show_clean_refuted`, `C112_patch_kept_refuted`): Refuted: temp.ulp in the current directory is overwritten and left behind (or the file of the user with that name removed). Proved: no other file changes.
* **C113** (`C113_no_dangling_refuted`): Refuted: a short read of the program headers leaves released pointers in place; they are used and released again. Proved for complete and failing reads.
* **C114** (`C114_unread_unused_refuted`): Refuted: a failing read of the program headers is not noticed (comparison of unsigned numbers). Proved for the file header and for all other outcomes.
* **C117** (`C117_dump_reads_refuted`): False of the code: for a last line that is not full, isprint reads all 16 positions, up to 15 bytes beyond the data (refuted). Partial: it reads exactly the bytes of the lines it begins, hence only the data if their number is a multiple of 16.
* **C118** (`C118_dump_count_refuted`): False of the code: the inner variable len shadows the outer one, so only 15 of the 80 characters of a line are counted (refuted). Partial: the exact ratio; no data or no stream writes nothing.
* **C120** (`C120_file_shown_refuted`): False of the code: NUL bytes, and what follows them in a chunk, are lost by the line printer (refuted). Partial: exact for files without NUL bytes; exact for all files through a descriptor.
* **C122** (`C122_failed_map_leaves_nothing_refuted`, `C122_ftype_empty_refuted`): False of the code: when mmap or ftruncate fails the descriptor stays open, in particular for an empty file (refuted, twice). Partial: map and unmap restore everything; a missing file or failed open leave no descriptor.
* **C124** (`C124_process_name_refuted`): False of the code: fscanf with %s takes the first word of the name only (refuted with the name of the tmux server). Partial: exact for names without blanks; the first word otherwise; a name of blanks is an error or leaves it empty.
* **C125** (`C125_link_text_refuted`): False of the code for buffers of the length of the text: strncpy leaves no NUL (refuted). Partial: exact with room for the NUL, which the tool's own buffers of PATH_MAX bytes always have; nothing outside the buffer is written; links to nothing are refused.
* **C127** (`C127_identifiers_shown_refuted`): False of the code: %d for unsigned identifiers, 4294967294 is shown as -2 (refuted). Partial: identifiers below 2^31.
* **C129** (`C129_descriptors_refuted`): False of the code: when the link of a descriptor cannot be read any more the node of a null pointer is linked and the tool crashes (refuted). Partial: exact if all links can be read; it crashes exactly if one cannot.
* **C131** (`C131_current_is_last_open_refuted`): False of the code: closing any process resets the current one to none (refuted with two processes). Partial: with one process at a time, and after each successful opening.
* **C132** (`C132_cause_refuted`): False of the code: without permission for the memory file the error number left is 0 (refuted). Partial: an error number other than 0 is that of the failing step; the steps that leave 0 are listed.
* **C133** (`C133_vanished_refuted`): False of the code: fopen of the name file is not checked (refuted). Partial: no crash if name, status and descriptor links can be read.
* **C134** (`C134_failed_open_refuted`): False of the code: a failing open removes the name file of a patched process (refuted). Partial: nothing but the three entries of the private directory is touched; a directory with patch files in it stays.
* **C135** (`C135_descriptors_returned_refuted`): False of the code: the stream of a blank name is not closed; a memory descriptor of at most 2 is not closed (refuted, both). Partial: otherwise all descriptors are returned on failure at once and on close otherwise.
* **C136** (`C136_only_what_is_asked_refuted`): False of the code: the flag for ELF headers alone also opens the ELF files and loads the symbols, because composite masks are tested for any common bit (refuted). Partial: what is asked for is loaded; threads, descriptors and private directory only if asked for.
* **C137** (`C137_map_read_refuted`): False of the code: the path is cut at the first blank, and inode numbers from 2^63 are cut off (refuted, both). Partial: exact for paths without blanks of at most 255 bytes, inode numbers below 2^63 and lines below 1023 bytes.
* **C138** (`C138_deleted_refuted`): False of the code: a path and the same path marked as deleted are read alike (refuted). Partial: the name is the first word of the path, at most 255 bytes of it, and equals the path exactly if the path has no blanks and at most 255 bytes.
* **C139** (`C139_one_per_line_refuted`): False of the code: a path of about thousand bytes yields a second, wild mapping, or no map at all (refuted, both). Partial: lines below 1023 bytes, whatever the paths.
* **C140** (`C140_buffers_refuted`): False of the code: the rest of a long line is parsed as a line of its own, and its permission word is stored in 5 bytes without a limit (refuted). Partial: lines below 1023 bytes.
* **C145** (`C145_notes_safe_refuted`): False: the room for the digits of a build id is computed in 32 bits, so a descriptor of 2^31 bytes gets one byte. Partial: sections below 2^31 bytes.
* **C146** (`C146_reads_refuted`): False: a symbol name outside the string table, a symbol in a section that does not exist, or a symbol table that cannot be read makes the tool use an invalid pointer. Partial: files whose names, symbols and interpreter are well-formed; notes arbitrary below 2^31 bytes.
* **C148** (`C148_traceable_refuted`): False for object files: the undefined mcount has no type and only functions are looked at. Partial: recognised exactly if a symbol of type function, first of its name and kind, has such a name.
* **C149** (`C149_segments_refuted`): False for uninitialised data: offsets and sizes in the file are compared, so its symbols get no segment. Partial: exactly the segments whose part of the file holds the section, when no sum wraps.
* **C150** (`C150_symbols_refuted`): False: the visibility is taken from the wrong byte (st_info), so it says nothing about the symbol. Partial: name, value, size, section, and types and bindings that have a name.
* **C151** (`C151_versions_refuted`): False: the test for the version section is the wrong way round, so versions are never found. Partial: no wrong version is ever given.
* **C152** (`C152_phdrs_refuted`): False for types without a name in the table. Partial: all other fields, the three permission bits, and named types.
* **C153** (`C153_header_refuted`): False for machines and types without a name. Partial: all other fields; what is refused is proved in full.
* **C156** (`C156_pid_refuted`): False for texts with trailing characters and numbers beyond int. Partial: texts that are decimal numbers below 2^31; the process exists; the last option counts.
* **C157** (`C157_command_refuted`): False with several commands: only the last one is done. Partial: one kind of command.
* **C161** (`C161_length_refuted`): False for the suffixes KB, MB, GB. Partial: plain decimal and hexadecimal numbers.
* **C162** (`C162_map_refuted`): False for names with a comma. Partial: all other names, all orders.
* **C163** (`C163_path_refuted`): False if the directory of the target cannot be read or the path is too long. Partial: otherwise.
* **C164** (`C164_again_refuted`): False: the command of the earlier call is kept. Partial: lines that give a command.
* **C165** (`C165_directory_refuted`): False on the first run under a umask that takes write permission, and for a second user. Partial: otherwise.
* **C166** (`C166_shown_refuted`): False with both a file and a process. Partial: one of them.
* **C167** (`C167_dump_refuted`): False with several --dump: they mix. Partial: one --dump.
* **C168** (`C168_running_refuted`): partial: functions are at least 16 bytes apart and the replaced program neither uses nor writes the first 16 bytes of replaced functions (C168_running_refuted: a shorter function, whose neighbour is overwritten); C168_machines: the x86_64 and aarch64 instruction models meet the conditions on the machine
* **C169** (`C169_inside_refuted`): partial: threads outside the 16 bytes of the jump; refuted for a thread inside them (the tool does not look at where threads are)
* **C170** (`C170_removed_refuted`): partial: if no thread uses the removed mapping any more; refuted for a thread inside the replacement (the mapping is unmapped under it)
* **C171** (`C171_torn_refuted`): partial: threads that do not come to the function while it is written; refuted (only the thread group leader is stopped and the copy is not atomic)
* **C172** (`C172_tools_refuted`): partial: each patch saves the code that its jump replaced; refuted: both tools accept one file and choose one number (C172_same_number), and after removing all patches the function jumps into an unmapped mapping
* **C173** (`C173_write_string_refuted`): partial: complete writes, and strings of at most 1024 bytes to be read back; refuted: a failing write is not reported
* **C174** (`C174_linked_refuted`): partial: x86_64; kernel and process behave (run_ok) and nothing in the file overlaps (linkable); refuted: an undefined function that the process does not have is linked to address 0 and success is reported, if a symbol that it has comes later in the table
* **C175** (`C175_linked_refuted`): partial: files without place-relative relocations; with them, the values are those for the address of the file in the tool; refuted: a bl of a patch that is reported as applied does not go to its function
* **C177** (`C177_stub_refuted`, `C177_static_refuted`, `C177_order_refuted`, `C177_version_refuted`, `C177_indirect_refuted`): false in five ways, each with a witness: the stub of the program comes before the library function it jumps to (replacing the function by name then only redirects the calls of the program); a static function hides an exported one; libraries are searched by address; the first version of a function is taken instead of the default one; an indirect function denotes its resolver. Partial: holds if no patch defines the name (C179), no file mapped lower has any symbol of that name and the file bound has it only at that address
* **C178** (`C178_data_refuted`): false: the symbols of a file mapped as data count, with a load address made from its mapping, and come first if it is mapped lowest. Partial: for names that the file has no symbol of
* **C179** (`C179_patches_refuted`): false: the functions and variables that a patch defines are registered before those of the files, so that they hide what the process has under the same names (witness: a patch with a function log_it and a program with a function log_it; the next patch that calls or replaces log_it gets the one in the first patch). Partial: for names that the patch does not define; in full for mappings without ELF header and unreadable files
* **C181** (`C181_alphabetical_refuted`): false: the order is the reverse of the alphabetical one, which is what the partial theorem says
* **C182** (`C182_complete_refuted`): false: bytes that are no instruction end the disassembly without notice. Partial: shown is everything up to there, and no instruction at all is reported. Capstone is an arbitrary decoder that goes on until there is no instruction
* **C183** (`C183_addresses_refuted`): false: the addresses shown are those of the copy in the tool. Partial: offsets are right
* **C184** (`C184_bytes_refuted`): false: after a read that ends early, what malloc left is shown. Partial: if all bytes could be read they are shown, if none could this is reported
* **C185** (`C185_vdso_refuted`): false: without a vdso the tool reads through a null pointer. Partial: with one vdso it is what is dumped (C103)
* **C186** (`C186_undisturbed_refuted`, `C186_mapping_refuted`): refuted: a SIGSTOP sent by somebody else before the system call instruction ran is taken for the end of the call; success is reported, the result is the content of the result register (the call number 9 for mmap on x86_64), so the patch is believed to be mapped at address 9. Partial: any number of signals other than SIGSTOP, SIGTRAP and SIGSEGV do no harm, on both architectures.
* **C187** (`C187_delivered_refuted`): refuted: a SIGTRAP reported while attaching and a foreign SIGSTOP or SIGTRAP during a remote call are swallowed although success is reported. Partial: for all event sequences, nothing else is lost when attaching or the call succeeds, at most the last reported signal when it fails, and nothing is invented.
* **C188** (`C188_listed_refuted`): refuted: a patch that a version of the tool with another ULPATCH_FILE_VERSION put into the process stays in the list without being filled, and the row is printed from uninitialised memory (a null or wild pointer).  Partial: for every list of mappings whose ELF ones are recognised, have a number below 2^31 and a time that localtime accepts, the text is a head that does not depend on them and one row each, as claimed.  The output of --verbose beyond C189 is not covered
* **C189** (`C189_read_refuted`, `C189_own_refuted`): refuted twice: a failed read is ignored and the stack of the tool is shown; with two patches of one function, applied one after the other, the older one is shown with the jump to the newer one.  Partial: if the read is complete, the address in the code of the function is shown, after the disassembly of its 16 bytes
* **C190** (`C190_library_refuted`): refuted: a library with another name that starts with libc- (libc-client.so.2007e) mapped below the C library is taken for it.  Partial: the choice is exactly the first executable mapping of a file other than the executable whose name starts with libc.so, libssp or libc-, and the first [stack], or a refusal if one is missing; hence if all such files are C libraries, one is found.  Maps whose paths have blanks or more than 255 bytes are excluded (C137, C138)
* **C191** (`C191_operands_refuted`, `C191_left_out_refuted`, `C191_stored_refuted`, `C191_process_refuted`): Refuted four ways: an operand may be overwritten before it is read, a call whose result is unused may be left out (x86-64 exit too), the time to sleep may not be stored yet, exit ends one thread only. Partial: operands apart, statement kept, object stored; the exit of aarch64 is always made.
* **C192** (`C192_result_refuted`): Refuted: the statement never writes its output operand. Partial: right if the compiler happens to choose rax; on aarch64 the value is shown to be independent of the kernel (C192_lost).
* **C193** (`C193_registers_refuted`, `C193_red_zone_refuted`): Refuted: registers that are not declared change, and the greeting overwrites the red zone on x86-64. Partial: exactly which registers and which bytes of the stack change.
* **C194** (`C194_bytes_refuted`, `C194_number_refuted`): Refuted: NUL bytes are written too, and on x86-64 only the lowest byte of the call number is set. Partial: what is shown is the line if three registers were below 256 (no condition on aarch64).
* **C199** (`C199_outside_refuted`, `C199_unmarked_refuted`): Exact characterisation of the marked mappings, and that these start inside segments if the last entry of the table ends inside one. Refuted: PT_LOAD falls through to PT_GNU_RELRO and the end of a mapping is compared with itself, so a second mapping of the file right behind the last segment is marked; a protected part whose end is not at a page border is not marked.
* **C200** (`C200_voffset_refuted`): Proved for files whose segments have the same pages in the file and in memory. Refuted: file offsets are compared with link-time addresses, so a mapping is shown with the address of another segment.
* **C202** (`C202_pie_refuted`): Proved when all ELF headers found in mappings of the program file are its own. Refuted: a later mapping of the file that starts with another ELF header decides.
* **C203** (`C203_leaders_refuted`): Refuted: a mapping added next to mappings of the same file becomes a group of its own, because the mapping before a new line is not remembered when that line is skipped. Partial: maps that only grew, by mappings with names of their own that do not come between two mappings of one object (as patches are). Missing (false): otherwise.
* **C204** (`C204_names_refuted`): Refuted: a mapping of the same range keeps the name it had, so a file mapped in place of another is not noticed. Partial: maps that only grew. Missing (false): otherwise.
* **C206** (`C206_state_refuted`): Refuted: if the kernel answers with an error (no such descriptor), success is returned with a meaningless state. Partial: on both processors the request is made with that descriptor, what the kernel stored is delivered and the memory is given back. Missing (false): the error.
* **C207** (`C207_prctl_refuted`): Refuted: a call that could not be made returns 0, the value for success. Partial: targets that run undisturbed. Missing (false): failures.
* **C208** (`C208_opened_refuted`, `C208_unreadable_refuted`): False in general: a negative count from libbfd (damaged symbol table) is used as the size of a copy, and a file that exists but cannot be opened makes libbfd work on NULL. Proved when the file can be opened, the counts are in order and names are short: NULL exactly for missing files, archives and non-objects, else lookups answer the first symbol.
* **C209** (`C209_closed_refuted`): False in general: of two symbols with one name in one class the second is refused by the tree and leaked. Proved for all files: nothing is freed twice or without having been allocated; when names are distinct in each class, exactly what was allocated is freed.
* **C210** (`C210_failed_refuted`): False: for archives and non-objects the struct for the file stays allocated. Proved: that is all that stays, and nothing for a missing file.
* **C211** (`C211_author_refuted`, `C211_number_refuted`): C211_shown_partial: every text that is printed is right, and there is one for a recognised file whose strings and record are inside it and whose time has a date; C211_refused: an error if and only if there is no text. C211_author_refuted: a section header of the author that points behind the end of the file is followed. C211_number_refuted: numbers of 2^31 and more are shown as negative ones. A process is not open (the jump shown for a process is C189); creation and removal of the temporary copy of the file are not part of the model.
* **C212** (`C212_overwritten_refuted`, `C212_removed_refuted`): C212_own_file_partial: if the name is free, what exists is kept, a failure leaves everything as it was, success makes a full copy; the name is free if the working directory is that of the patches. C212_overwritten_refuted, C212_removed_refuted: the name is looked for in the working directory and used in the directory of the process, so that the file of an applied patch can be overwritten or removed. What the steps after the copy do to the process is C39 and others.
* **C213** (`C213_left_refuted`): C213_clean_partial: for a descriptor other than 0. C213_left_refuted: descriptor 0 is taken for an error and the file stays. mkstemp is modelled as documented for glibc; buffers are long enough.
* **C214** (`C214_variable_refuted`): C214_class_partial, C214_found_partial: for all sections but those without bytes in the file that are not .bss, provided that sections with reserved names have the attributes of the gABI. C214_variable_refuted: a variable of another section without bytes (.lbss, .tbss) is in no class and is not found. The flags of libbfd are derived from the section headers as in its elf.c; which name is found, when several symbols have it, is C90.
* **C215** (`C215_first_call_refuted`): C215_a64: AArch64, in full (what the generated branch does is C27). C215_x86_partial: x86-64, if no instruction before the call contains the byte e8. C215_first_call_refuted: the byte is looked for at each address, not at each instruction, so that in sub $0xe8,%rsp; call the operand of the subtraction is taken for the call and the first instruction is destroyed. That the loop ends if there is no call is not claimed: it does not.
* **C216** (`C216_text_refuted`): C216_escapes: for any text the bytes are exactly those of the escape sequences of the assembler, and a text is accepted if and only if it has such a reading. C216_text_partial, C216_accepted: for texts without quotes and backslashes. C216_text_refuted: the assembler takes a backslash for the beginning of an escape sequence, so that the author CORP\tom is shown with a tab. The assembler is modelled by its reading of strings (gas/read.c).
* **C217** (`C217_all_refuted`): C217_first_partial: the first replacement is found as written, with a record of version 5 that says that the patch was not applied. C217_all_refuted: a second one is accepted and passed over. What is done with the first one is C85 and others.
* **C218** (`C218_stdout_refuted`, `C218_compiler_refuted`): C218_told: --help and --version come first and print nothing else. Proved for commands of one word that write nothing to their standard error: status 0 and the exact line, whatever the order and spelling of the options (the usage text asks for --cc before --cflags; the order does not matter); every unusable command line ends with status 1 and without flags. Refuted in full twice: "2>&1 >/dev/null" sends what the compiler says on its standard error to the standard output, in front of the flags; and a compiler of several words ("ccache gcc", "gcc -m32") is cut off after the first, so that the flags are those of another command. Failing getopt(1) ends the script by set -e, so that the usage text of line 189 is never shown.
* **C219** (`C219_selected_refuted`): Refuted in full: should_skip computes whether a test is to be left out and then sets the answer to false (lines 494-495), so that every test is run and listed whatever the options. What remains is proved: no selected test is left out, and if all tests are selected (without options for instance) the course of the run is the right one. That the records of the tests are found in the section of the program (init_tests) is not modelled.
* **C221** (`C221_last_refuted`, `C221_mix_refuted`): One -r: proved for all texts, refusals included. Refuted in full twice: the roles of a second -r are added to those of the first instead of replacing them, and several threads among several roles are accepted but end the program with an error half-way. The other options that some roles need are taken to be right.

## Trusted base

* Coq's kernel (coqc 8.16.1).  `vm_compute` is used in proofs about concrete values.
* `Print Assumptions` is run by the build under every property theorem; the answer is
  "Closed under the global context" for every one of them.  No axiom is used.  (The checker
  lists seven axioms of the loaded standard library module `Coq.ssr.ssrunder`,
  `Under_rel.*`; no theorem depends on them.)  The development contains no `Axiom`,
  `Parameter`, section-less `Variable`, `Admitted`, functor or module type; the `Variable`s
  of `CmdModel.v` and others are inside sections and become arguments.
* The correspondence of the model definitions with the C sources, by the cited lines.
* The independent specifications (`*Spec.v`): psABI and AAELF64 relocation formulas,
  instruction semantics, `/proc` and loader behaviour, as written there.

## Modelled and not modelled

| code | model | left out |
|------|-------|----------|
| utils/rbtree.[ch], utils/list.[ch] | RbModel, ListModel | iteration macros that start in the middle of a list |
| task/vma.c, task/vma.h, init.c (page size) | VmaModel; MpModel (text of maps, listing), LbModel (C library, stack) | listing with detail |
| task/symbol.c | SymModel; task_load_vma_elf_syms in RsModel; load addresses in PkModel | printing |
| task/core.c, task/proc.c, task/fd.c, task/thread.c, task/current.c | opening and closing: PrModel (steps, status, threads, descriptors), VmaModel (map), PkModel (ELF headers), GrModel (groups, segments of mappings, voffset, print_task), FsModel (private directory), PaModel (patches) | |
| task/auxv.c, task/memcpy.c | MiscModel, AxModel (listing); ScModel, CmdModel | the unused pid_read, pid_write |
| task/syscall.c, arch/*/syscall, ptrace use | ScModel, SgModel, FxModel (fstat, prctl) | register sets other than the named ones |
| patch/meta.h (macros) | LdModel, MtModel (with the strings of the assembler) | the rest of compiling and linking a patch |
| ulpconfig.sh.in | UcModel | the compiler and the linker (oracles), the usage text, expansion of file name patterns |
| tests/main.c, tests/engine/test.c (the program ulpatch_test) | RtModel | the tests themselves, finding their records, listener and message queue, times |
| patch/asm.h (system calls built into patches) | AsModel: the statements, with the choices of the compiler as parameters | code generation of the compiler, flags, faults |
| patch/patch.c, task/patch.c | LdModel (loading), PaModel (process), PaHist (histories), RnHist/RnProps/RnRaceProps (running target, threads, two tools) | printing; instruction caches, weak memory order |
| arch/x86_64/{patch,instruments}, arch/aarch64/{patch,insn,ftrace,instruments} | X86RelocModel, InsnModel, A64Model, MiscModel, FcModel | aarch64 instructions that no code path of the tool generates |
| arch/*/mcount.S | TrModel | flags, faults, unwinding directives; the hooks themselves are arbitrary functions |
| elf/*.c | ElfModel, ElfFile, ClModel (classes of symbols), TextModel (build ids), BfModel (opening and closing through libbfd), EcModel (notes, sections, symbols, program headers, listings) | libelf and libbfd (inputs), relocation sections and core notes as read at opening, tables of versions, head lines of listings |
| utils/string.c, macros.h, log.c, callback.c, file.c | TextModel, MiscModel, FsModel, ShModel, DsModel (disasm.c) | backtraces, md5, time, capstone (an input) |
| ulpatch.c, ultask.c, ulftrace.c, ulpinfo.c, args-common.c | ToolModel, CmdModel, MiscModel; DsModel (list of symbols, disassembly, vdso); LiModel (list of patches); UiModel (text for a patch file); ArModel (command lines: getopt_long and getsubopt of glibc as documented, the tests after parsing, __env_init of init.c) | usage texts, most of the output, the environment variable POSIXLY_CORRECT |
| compiler, libc, kernel, dynamic loader | only through oracles and specifications | |

Allocation failure is modelled only where a definition says so.  Concurrency (a target
changing its memory while it is examined, two tools at work on one target) is modelled
as far as oracles may answer differently each time, and in the Rn files: threads that run
while and after a function is patched (sequentially consistent, whole instructions), and two
tools whose steps on one target are interleaved.
