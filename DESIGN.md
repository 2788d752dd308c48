# Formal model of ColinFinck/ntfs in Coq — design

## What is modelled

`rocq/theories` contains a functional model of the `ntfs` crate (`/repo/src`), written function by
function.  Each definition cites the file and lines it models.

| model file | code |
|------------|------|
| Base.v, Dev.v | error type, outcomes; the device (`T: Read + Seek`), `read_exact` of std, monad |
| Types.v | types.rs, file_reference.rs |
| BootSector.v, Volume.v | boot_sector.rs, ntfs.rs |
| Record.v | record.rs |
| DataRuns.v | data run decoding and iteration of attribute_value/non_resident.rs |
| Stream.v, NonResident.v | stream state, reads and seeks of attribute_value/non_resident.rs |
| Resident.v | attribute_value/resident.rs |
| Attribute.v | attribute.rs: headers, names, values, raw iteration |
| AttrList.v | attribute.rs: flattened iteration; structured_values/attribute_list.rs; attribute_value/attribute_list_non_resident.rs; attribute_value/mod.rs; `find_attribute`, `data`, `name` of file.rs |
| File.v | file.rs, header accessors; `Ntfs::file` |
| Structured.v | structured_values: standard_information, file_name, volume_information, volume_name, object_id |
| Index.v | index.rs, index_entry.rs, index_record.rs, structured_values/index_root.rs, index_allocation.rs, indexes/file_name.rs, `directory_index` of file.rs |
| Upcase.v | upcase_table.rs |
| Time.v, Guid.v | time.rs, guid.rs |
| SectorReader.v | examples/ntfs-shell/sector_reader.rs |
| BufReader.v | the stack of readers that examples/ntfs-shell/main.rs builds (`BufReader` of std from its documentation) |
| Shell.v | examples/ntfs-shell/main.rs: input lines, opening, `attr`, `attr_runs`, `cd`, `dir`, `fileinfo`, `fsinfo`, `get`, `parse_file_arg`, `best_file_name`, the command loop |

Conventions:

* **Integers** are `Z`.  Bytes are `Z` in `0..255` (`is_byte`).  Every place where the Rust code uses a
  fixed width operation is written out: `checked_*` becomes an explicit range test with the error the code
  returns, `wrapping_*` becomes an explicit `mod`, and an *unchecked* `+`, `-`, `*` or a slice index becomes an
  explicit test whose failing branch is `Panic` (debug build semantics; where a theorem shows `Panic` cannot
  happen, release and debug builds agree).
* **Outcomes** are `res A := Ok a | Err e | Panic | OutOfFuel`.  `Panic` and `OutOfFuel` are separate
  constructors, so no theorem can be satisfied by a totalised default.  `OutOfFuel` only exists for loops whose
  termination is not structural; the theorems exclude it.
* **Device** (`T: Read + Seek`): an image (list of bytes), a cursor, and a *schedule* of what the following read and
  seek calls do: short reads, `Interrupted`, failures.  A theorem that quantifies over every device state
  quantifies over every schedule.  A *faultless* device may still give arbitrarily short (nonzero) reads.
  A cursor before the first byte (no `Seek` of std gives one) reads nothing.
* **Readers** return the new reader state even when the operation fails, so the state after an error is visible.

The specifications are separate files: Spec.v (devices, extents, contents, records, attributes, readers as cursors),
SpecValues.v (structured values), SpecMisc.v (names, streams, conforming readers), SpecIndex.v (index nodes, trees, listings),
SpecAttrList.v (attribute lists, split values, the flattened view of a file), SpecVolume.v (a whole volume and the replies to commands), SpecInfo.v (what is told about files and volumes), SpecInput.v (input lines), SpecFaults.v (devices with and without their faults, honest calls), SpecSteady.v (devices with the same bytes), SpecPanic.v (the shapes of a volume that make the library panic), SpecErrors.v (what each error message says about the bytes), SpecHost.v (files of the host), SpecAttached.v (programs that use a reader), SpecHoled.v (directories with unreadable nodes), SpecBroken.v (damaged extent lists), SpecStale.v (left-over data), SpecRecovery.v (values after errors), SpecPath.v (the nodes a lookup depends on), SpecListDir.v (directories with an attribute list),
SpecTotal.v (what it means that an operation ends), SpecStack.v (programs that seek before each read), SpecLive.v (contents that change), SpecCost.v (number of accesses).  Theorems are in `Props*.v`, with an
`Example` beside each group that shows a concrete case meeting the hypotheses (data in `*Examples.v`); proofs are in
`*Proofs.v` and `IndexClaims.v`.

## What is not modelled

* `binrw` derive code: reading a `#[derive(BinRead)]` struct is modelled as one `read_exact` of the struct's size
  followed by little endian decoding of each field at its offset.  (binrw reads field by field; over a faultless
  device the result is the same.  On failure binrw seeks back; all callers here discard the reader or reseek.  In
  C60 and C61 a failing read inside such a struct and a failure of that seek count as one fault.)
  error.rs 231-238 hits `unreachable!` if binrw ever reports an error other than `Error::Io`; the structs read here have neither magic
  numbers nor assertions nor enums, so the model takes it that binrw does not.
* Code of the standard library.  `read_to_end` and `read_exact` of the trait `Read` are modelled (Attached.v) from their
  documentation: they go on after `Interrupted`, and the amounts `read_to_end` asks for are a parameter.
* Memory allocation (`Vec::with_capacity`, out-of-memory) and `usize` narrower than 64 bits.
* Rust `str` is represented by its UTF-16 code unit sequence; UTF-8 handling, `to_string_lossy` are not modelled.
* The `time`/`chrono` crates are represented by the integer number of nanoseconds they denote.
* `/repo/examples`: of `main.rs` the text of `help`, headings and the layout of what is printed (a printed line is a tuple of the values in it;
  flags are numbers, times are nanoseconds), reading lines from standard input (the model starts from a list of lines); the
  host's file system is a map from names to contents, names are equal if their units are, and writing to it does not fail.  `Debug`/`Display` text except `NtfsGuid`.
* The commands of the example program run on the device itself, without the stack of readers that `main` builds; C75 relates this stack to a device, and `C75_session`/`C75_stored` carry sessions over to it.  The sequential
  small reads of `binrw` in `Ntfs::new` are one read in the model; `C75_fields` covers them.
* `debug_assert!` (all of them restate a check that the caller has just made).
* `Ntfs::file` reads the MFT through `find_resident_attribute`, which does not follow attribute lists (the code says so itself);
  the model has that branch only.
* Error payloads are kept (positions, expected, actual); `&'static` expected signatures are left out.

## Trusted base

* Coq 8.16.1 kernel (`coqc`, `coqchk`), including the `vm_compute` machine.
* `coqchk -o` lists the axioms `Coq.ssr.ssrunder.Under_rel.*`: they are part of a standard-library module that is loaded with `Lia`/`Zify`. No theorem depends on them.
* The hand translation Rust -> Gallina, reviewed via the citations.
* `Print Assumptions` stands under every property theorem (files `Props*.v`).  For each of them, the `_refuted` ones included,
  it prints "Closed under the global context": no axioms, not even standard library ones.
* Only the Coq standard library is used (`rewrite ... by`, `lia`; no ssreflect, no other library).

## Plan per property

| id | model | proof | theorems in |
|----|-------|-------|-------------|
| C01 | BootSector | spec predicate on the 512 bytes; iff by case analysis, arithmetic | PropsRecord |
| C02 | Record | independent `protect`; induction over blocks | PropsRecord |
| C03 | Record | loop invariant of fixup: positions outside block ends unchanged | PropsRecord |
| C04 | Record | range reasoning; refutation witness for >= 64 KiB | PropsRecord |
| C05 | DataRuns | relational encoder spec `encodes`; induction over the run list | PropsRuns |
| C06 | DataRuns | measure = bytes left; refutation of "same error" by witness | PropsRuns |
| C07 | DataRuns | inversion of one step | PropsRuns |
| C08 | DataRuns | refuted by witness; positive theorem for every extent list, with the extents at LCN 0 taken for holes | PropsRuns |
| C09-C12 | Stream, NonResident | invariant relating (stream position, current run, run cursor, remaining runs) to content; refinement of a cursor over the content | PropsStream |
| C13, C14 | NonResident | invariant preserved under faulty schedules; "nothing consumed", "transparent" refuted by witness | PropsStream |
| C15 | NonResident | refuted by witness; positive up to the first extent that is off the device | PropsStream |
| C16 | Resident | direct refinement | PropsStream |
| C17, C48 | Stream | generic loop lemma over conforming readers, instantiated to each value kind | PropsStream, PropsRead |
| C18-C20 | Attribute | iteration measure, in-bounds lemmas; accessor panic refuted by witness | PropsAttr |
| C21, C22 | File, AttrList | spec: first match on the list of raw attributes | PropsAttr, PropsAttrs |
| C23, C24 | File | via C09/C12; straddling refuted by witness | PropsFile |
| C25, C33, C34, C39, C41 | Types, Time, Guid | arithmetic | PropsMisc, PropsRuns |
| C26, C30 | Index | measure; panics refuted by witness, positive under guards | PropsIndex, PropsListHoled |
| C27, C28, C29 | Index | tree relation, stack invariant; induction on trees; cyclic index witness | PropsIndex, PropsListHoled |
| C31, C32 | Upcase | comparison laws by list induction; loading via C23, C09 | PropsMisc, PropsRead |
| C35, C45 | Structured, Volume | byte-level decoding specs, then through attributes and files | PropsValues |
| C36 | AttrList | walk relation over the list content; iterator refines it | PropsAttrList, PropsListEntries |
| C37 | AttrList | the refinement of C11 with a two-level run source | PropsAttrList |
| C38 | Stream | refinement theorems hold for every device cursor, hence for all interleavings | PropsStream |
| C40, C49 | Index | record lookup and iteration via C09-C12 and C02 | PropsIndex |
| C42 | SectorReader | refuted by witness; positive for read-after-seek | PropsMisc |
| C43, C46 | Stream, NonResident, AttrList | termination measure over runs and list entries for arbitrary contents; position bookkeeping | PropsTotal, PropsRead |
| C44 | Resident | refuted by witness; exact offset error | PropsAttr |
| C47 | File, Attribute, Index | field decoding | PropsAccess |
| C50, C51 | AttrList | relation `listed` between list entries and views; the iterator refines it; searches by induction over the views | PropsFlat |
| C52, C53 | Shell and all of the above | a volume is an abstract map from numbers to files; `stored_volume` relates it to the image, for files with all attributes in their record (`describes_file`) and for files with an attribute list (`describes_listed`, via the flattened view of C50 and C51); the model's state refines the path of the user, by induction over the commands; counterexample with a backslash | PropsShell |
| C56, C57 | Shell, AttrList | the printed lines as a relation on the bytes of the record and the list; induction over attributes and entries on top of C18, C36, C50 | PropsInfo |
| C58, C59 | Shell | a line is word, white space, argument; uniqueness of that split; sessions via C52 | PropsInfo |
| C60, C61 | all | one simulation of two runs for every operation (FaultProofs): instance 1, with and without faults; instance 2, with little and much fuel. Both together give the sessions | PropsFaults |
| C62 | every parser of the model | for each operation: an error implies its message (SpecErrors.v quotes src/error.rs) or one of the listed false messages, by cases over the checks, induction for the iterators; each false message is shown to occur | PropsErrors |
| C63 | Host | the host's files as a list that only grows, by induction over the commands, on top of C52 and C61 | PropsHost |
| C64 | all | instance 3 of the simulation of FaultProofs: a device that splits its reads beside one that never does and starts at 0; both devices are compared with the same such device | PropsSteady |
| C65 | all | an invariant `np` (no panic, and what the result satisfies) for every function, from the bytes up: PanicProofs (records, attributes, values, lists), PanicIndexProofs (indexes), PanicShellProofs (commands, sessions); the example is checked by PanicExamples, a decision procedure for images without attribute lists and large directories | PropsPanic |
| C66 | Attached | the attached value as an object with `read` and `seek`, a program as a function of the answers it has had; any conversation with the object equals that with bytes in memory (induction on the calls, from C09, C37); the loops of the standard library on top of it, with faults by C60 | PropsAttached |
| C67 | Index | an inductive relation for what is seen of a tree with unreadable nodes; induction over it on top of C27 and C60, counting the faults of the device; counterexample; on top of C74 for directories with an attribute list | PropsHoled, PropsListHoled |
| C68 | DataRuns, Stream, NonResident | a lenient reader that takes the damage for the end refines a cursor (as for C09); simulation of the code by it, operation by operation; counterexample | PropsBroken |
| C69 | Attribute, Stream | from C66 if the bytes behind the initialised size are zeros; counterexample | PropsStale |
| C70 | Index, AttrList, File | from C23, C36 and C47; counterexamples | PropsStale |
| C71 | Attribute | from C18: the attributes up to the end mark; counterexample | PropsStale |
| C72 | Attribute, AttrList, Stream | the invariant of C11 holds after failed calls too; for values in several records, `rewind` forgets all that a failed call has left behind; counterexample | PropsRecovery |
| C73 | Index | induction over the listing of the undamaged index gives the way; the proof of C28 goes through with any other index that agrees on it (C67 for damaged nodes); with an attribute list, the subnode steps are those of C74 and C67 | PropsPath, PropsListPath |
| C74 | Index, AttrList | the flattened search (C51) finds both attributes; the value made of the parts refines a cursor over the joined content (C37), and with that the proofs of C27 and C28 go through; more fuel changes nothing (C60) | PropsListDir |
| C75 | BufReader, SectorReader | programs as trees of accesses; one access through both readers gives the bytes or an error, for any device; induction over the program; counterexample near the end; every operation of the library and every session is such a program (a tree of accesses is built along the model, ReaderProgProofs, SessionProgProofs), so that C52 and C61 hold through the stack | PropsStack |
| C76 | BootSector, Index | bounds from the description of the boot sector (C01), for devices with faults; counterexamples | PropsSizes |
| C77 | NonResident, Resident, Attribute, AttrList | the invariant of C11 does not mention the contents of the device, so it survives their change between operations; induction over the history | PropsLive |
| C78 | BootSector, File, NonResident, Resident, Attribute, AttrList, Index, Volume | counting the prepared answers of the device that are used up; loop invariant: seeks and reads made against the extents that the bytes still wanted meet; lookups by induction on the steps of the search with the level of the node it is in, listings with the number of records that the nodes on the stack still lead to | PropsCost |
| C54 | Shell | digits by induction from the right | PropsShell |
| C55 | all but Index | every loop settles: lexicographic measures over list entries, runs and device events, invariants on what hostile data can hold | PropsHostile |

A property that the code violates is kept in the list at full strength; the violation is proved as
`..._refuted : exists ..., ...`, and the strongest true restriction is proved as `..._partial`.

## Findings

Behaviour of the code that the proofs brought up. Those with a theorem name are proved about the model.

1. A data run that starts at cluster 0 is treated as sparse (`C08_cluster_zero_refuted`).
2. The data run iterator may change its error between two calls (`C06_same_error_refuted`).
3. On a truncated device, a read that reaches the end of the device in the middle of a run goes on with the next run: misplaced bytes (`C15_truncated_refuted`).
4. A non-resident read that fails after partial progress has moved the position; after `Interrupted`, `read_exact` then succeeds with wrong bytes (`C13_error_consumes_refuted`, `C14_interrupted_refuted`).
5. `data_position` is wrong after reading up to the end of a run (`C12_data_position_refuted`).
6. A failed forward seek leaves the stream position as it was but the run moved; a failed seek from the start leaves position 0.  A seek to the reported position then succeeds without moving the run, so that reads return wrong bytes (`C68_failed_seek_refuted`).
7. Value of an attribute list: an error leaves the run state taken, so a part is skipped afterwards and later reads report the end of the value (`C72_listed_refuted`; a seek back helps, `C72_resident_list_partial`); `rewind` does not reset the attribute state; a part without runs ends a read early.
8. If the first part of a split value lies in the base record, opening the stream gives a continuation with an empty value (`C37_base_part_refuted`); a directory whose $INDEX_ALLOCATION is split that way cannot be listed (`C74_base_part_refuted`).  Parts must share the instance (`C37_instance_refuted`).
9. The raw attribute iterator goes up to the end of the record, not of its used part (`C71_left_over_refuted`); its errors repeat for ever.
10. Panics on crafted input: short attribute at the record end (`C20_short_attribute_refuted`); index entries shorter than their header, `$INDEX_ROOT` with `index_size < entries_offset`, index records whose entries start behind their end, tiny index record sizes, `24 + size` beyond 32 bits (`C30_no_panic_refuted`, `C26_ends_refuted`); records of 64 KiB and more (`C04_large_record_refuted`); run positions beyond 2^64 (`C43_panic_refuted`).
11. Cycles in an index: iteration and lookup do not end (`C29_cycle_refuted`).
12. File records that straddle two runs of the MFT are read wrongly (`C24_straddling_refuted`).
13. The data position of a resident value lacks the value offset (`C44_resident_position_refuted`).
14. `initialized_size` is ignored: bytes behind it are read from the clusters (`C69_uninitialised_refuted`).
15. GUID text pads with spaces (`C41_padding_refuted`); conversion to `SystemTime` can overflow (`C34_overflow_refuted`); times up to 99 ns before 1601 are accepted (`C33_before_1601_refuted`); the sequence number of a file reference is not compared (`C70_stale_refuted`, `C70_list_stale_refuted`).
16. Sector reader of the example: sequential reads without a seek give wrong bytes, the last sector cannot be read (`C42_sequential_refuted`, `C42_last_sector_refuted`).
17. Resident attribute list: a last entry whose length points behind the end is dropped silently (`C36_cut_entry_refuted`); the name offset of entries is ignored (`C36_name_offset_refuted`); at bytes that are no entry the same error is returned for ever (`C36_ends_refuted`), so the attributes behind a malformed list are not reachable.
18. An update sequence array that overlaps a block end is itself altered while it is applied (hypothesis `array_clear`).
19. An error while following a subnode skips the entry and its subtree (`C67_intact_refuted`); `find` stops early on a non-last entry without key.
20. Malformed index nodes: iterators return the same error for ever (`C26_ends_refuted`); the iterator over index records does not move on after an error (C49).
21. Flattened iteration: entries of two different attributes are taken for parts of one if they agree in type and instance, although instances are only unique within one record; the second attribute is lost (`C50_same_instance_refuted`). A list that ends in bytes which are no entry stops the iteration with the same error for ever, and attributes that the record itself holds behind the list (an index root or $DATA, say) cannot be found any more (`C50_behind_bad_list_refuted`).
22. Example program: a directory whose name contains a backslash makes `cd ..` (given twice) remove the root directory from the list of directories; the next command panics (`C53_backslash_refuted`).
23. Example program: `fsinfo` shows a volume name that could not be read because of a device error as missing, without an error (`C61_fsinfo_refuted`).
24. Example program: `get` creates the output file before it looks for the file on the volume, so a mistyped name leaves an empty file (`C63_leftover_refuted`), and after a device error the command cannot be repeated (`C63_retry_refuted`).
25. Error messages: the position given for a corrupted sector is that of the saved bytes in the update sequence array, not of the sector end (`C62_sector_refuted`).
26. Error messages: an update sequence array that does not fit is reported as covering too many blocks, even if all the blocks are in the record (`C62_array_refuted`).
27. Error messages: for index records (`C62_index_record_refuted`), entries of attribute lists (`C62_list_refuted`) and names in $FILE_NAME values (`C62_values_refuted`) the expected and the actual size are exchanged. A VCN behind the end of an index allocation is said to exceed the filesystem (`C62_allocation_refuted`).
28. Error messages: a sector size such as 768 is said to be outside of 512 to 4096 (`C62_open_refuted`); attributes shorter than 16 bytes are said to have a length of 16 (`C62_attributes_refuted`), likewise index entries, and 16 instead of 32 bytes are said to be expected of an index root (`C62_index_refuted`); data runs that start behind their attribute are said to exceed the record (`C62_data_runs_refuted`); too short volume information is said to be standard information (`C62_values_refuted`); a file that has attributes of a type, but none with the name looked for, is said to have none of the type (`C62_find_refuted`).
29. Example program: `dir` panics at an index entry without a key that is not the last one (`C65_keyless_refuted`).
30. Example program: because the buffer always asks for 8192 bytes and the sector reader for one sector more than needed, nothing in the last 12 KiB of a partition can be read; a partition shorter than that cannot be opened (`C75_near_the_end`, `C75_small_volume_refuted`).
31. Sizes of records are limited only if they are given as an exponent: a boot sector can ask for buffers of 254 MiB, an index root for buffers of 4 GiB (`C76_file_records_refuted`, `C76_index_records_refuted`).
