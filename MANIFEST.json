{
 "claims": [
  {
   "property": "C01",
   "status": "partial",
   "theorems": [
    "C01_requests_are_architectural",
    "C01_requests_are_architectural_weak_ack",
    "C01_riscv_unless_mcause_read",
    "C01_riscv_without_deviation"
   ],
   "note": "Against the reference machine with Sentinel's two MCAUSE deviations (C17, C24: variant SENTINEL) for all programs; against the unmodified RISC-V machine for all programs that never read MCAUSE into a register / never hit a deviation. The full statement is false because of C17/C24."
  },
  {
   "property": "C02",
   "status": "proved",
   "theorems": [
    "C02_registers_match_reference"
   ],
   "note": "reference machine includes the MCAUSE deviations C17/C24"
  },
  {
   "property": "C03",
   "status": "proved",
   "theorems": [
    "C03_reset_from_any_state"
   ],
   "note": ""
  },
  {
   "property": "C04",
   "status": "proved",
   "theorems": [
    "C04_x0_is_zero"
   ],
   "note": ""
  },
  {
   "property": "C05",
   "status": "proved",
   "theorems": [
    "C05_request_held"
   ],
   "note": ""
  },
  {
   "property": "C06",
   "status": "proved",
   "theorems": [
    "C06_drop_after_ack"
   ],
   "note": ""
  },
  {
   "property": "C07",
   "status": "partial",
   "theorems": [
    "C07_data_without_wait_partial",
    "C07_refuted_combinational_slave"
   ],
   "note": "Full statement is false of the code: refuted with a combinational ROM and a three-instruction program. Proved when instruction fetches (only) get at least one wait state."
  },
  {
   "property": "C08",
   "status": "proved",
   "theorems": [
    "C08_never_hangs",
    "C08_bound_only_shift_31"
   ],
   "note": ""
  },
  {
   "property": "C09",
   "status": "proved",
   "theorems": [
    "C09_microcode_stays_in_program"
   ],
   "note": ""
  },
  {
   "property": "C10",
   "status": "proved",
   "theorems": [
    "C10_signals_well_formed"
   ],
   "note": ""
  },
  {
   "property": "C11",
   "status": "proved",
   "theorems": [
    "C11_misaligned"
   ],
   "note": ""
  },
  {
   "property": "C12",
   "status": "proved",
   "theorems": [
    "C12_store"
   ],
   "note": ""
  },
  {
   "property": "C13",
   "status": "proved",
   "theorems": [
    "C13_load"
   ],
   "note": ""
  },
  {
   "property": "C14",
   "status": "proved",
   "theorems": [
    "C14_op_imm",
    "C14_op_reg",
    "C14_lui_auipc"
   ],
   "note": ""
  },
  {
   "property": "C15",
   "status": "proved",
   "theorems": [
    "C15_branch",
    "C15_jal",
    "C15_jalr"
   ],
   "note": ""
  },
  {
   "property": "C16",
   "status": "proved",
   "theorems": [
    "C16_illegal_words_trap",
    "C16_legal_words_do_not"
   ],
   "note": ""
  },
  {
   "property": "C17",
   "status": "partial",
   "theorems": [
    "C17_cause_2_partial",
    "C17_refuted_not_quite_ecall"
   ],
   "note": "Full statement is false of the code: the words 0x70, 0x71 and 0x72 (ECALL's bits, but low bits not 11, hence illegal) report cause 11 (C17_refuted_not_quite_ecall). Proved for all other illegal words."
  },
  {
   "property": "C18",
   "status": "proved",
   "theorems": [
    "C18_csr_access"
   ],
   "note": ""
  },
  {
   "property": "C19",
   "status": "proved",
   "theorems": [
    "C19_csr_read_modify_write"
   ],
   "note": ""
  },
  {
   "property": "C20",
   "status": "proved",
   "theorems": [
    "C20_read_only_zero"
   ],
   "note": ""
  },
  {
   "property": "C21",
   "status": "proved",
   "theorems": [
    "C21_exception",
    "C21_interrupt",
    "C21_no_other_traps"
   ],
   "note": ""
  },
  {
   "property": "C22",
   "status": "proved",
   "theorems": [
    "C22_mret",
    "C22_fence_wfi"
   ],
   "note": ""
  },
  {
   "property": "C23",
   "status": "proved",
   "theorems": [
    "C23_interrupt_taken",
    "C23_interrupt_only_if"
   ],
   "note": ""
  },
  {
   "property": "C24",
   "status": "partial",
   "theorems": [
    "C24_interrupt_bit_partial",
    "C24_refuted_sticky_bit"
   ],
   "note": "Full statement is false of the code: refuted by C24_refuted_sticky_bit (the interrupt bit of MCAUSE stays set when a synchronous exception follows an interrupt). Proved for every exception before which no interrupt was taken; after one, it is set, whatever software wrote to MCAUSE."
  },
  {
   "property": "C25",
   "status": "proved",
   "theorems": [
    "C25_mip"
   ],
   "note": ""
  },
  {
   "property": "C26",
   "status": "proved",
   "theorems": [
    "C26_cycles_per_instruction",
    "C26_trap_timing",
    "C26_late_traps"
   ],
   "note": "C26_late_applies"
  },
  {
   "property": "C27",
   "status": "proved",
   "theorems": [
    "C27_other_registers_unchanged",
    "C27_other_csrs_unchanged",
    "C27_only_stores_write"
   ],
   "note": ""
  },
  {
   "property": "C28",
   "status": "proved",
   "theorems": [
    "C28_only_acked_inputs_matter",
    "C28_inputs_that_matter"
   ],
   "note": "C28_inputs_that_matter also frees the byte lanes not selected, DAT_R of acknowledged writes, and IRQ outside the cycles in which it is sampled (C28_inputs_that_matter_applies)."
  },
  {
   "property": "C29",
   "status": "proved",
   "theorems": [
    "C29_masked_irq_invisible"
   ],
   "note": ""
  },
  {
   "property": "C30",
   "status": "proved",
   "theorems": [
    "C30_rom_says_what_source_says",
    "C30_shipped_rom",
    "C30_pack_unpack",
    "C30_fields_are_layout_view",
    "C30_rom_reads_assembled_words"
   ],
   "note": "m5pre/m5meta are modelled for the constructs microcode.asm uses"
  },
  {
   "property": "C31",
   "status": "partial",
   "theorems": [
    "C31_layout_correct_iff_partial",
    "C31_refuted_two_gaps",
    "C31_accepted_fields_match_field_map"
   ],
   "note": "Full statement is false of the code (padding_id is never incremented, no padding before the first field): the layout is right iff the first field is at bit 0 and there is at most one gap."
  },
  {
   "property": "C32",
   "status": "proved",
   "theorems": [
    "C32_datapathsrcmux_equivalent"
   ],
   "note": ""
  },
  {
   "property": "C33",
   "status": "proved",
   "theorems": [
    "C33_flat_memory",
    "C33_wbmemory_system"
   ],
   "note": ""
  },
  {
   "property": "C34",
   "status": "proved",
   "theorems": [
    "C34_reserved_bits"
   ],
   "note": ""
  },
  {
   "property": "C35",
   "status": "proved",
   "theorems": [
    "C35_only_software_sets_mie",
    "C35_no_nested_interrupt"
   ],
   "note": ""
  },
  {
   "property": "C36",
   "status": "proved",
   "theorems": [
    "C36_transmit_framing"
   ],
   "note": ""
  },
  {
   "property": "C37",
   "status": "proved",
   "theorems": [
    "C37_receive",
    "C37_unread_character_kept"
   ],
   "note": ""
  },
  {
   "property": "C38",
   "status": "proved",
   "theorems": [
    "C38_loopback",
    "C38_stream"
   ],
   "note": ""
  },
  {
   "property": "C39",
   "status": "partial",
   "theorems": [
    "C39_timer_irq",
    "C39_timer_read_value",
    "C39_cleared_irq_is_reported_partial",
    "C39_refuted_lost_tick",
    "C39_csr_timer"
   ],
   "note": "Interrupt timing proved exactly. \"Cleared only by a read that reports it\" is false of the Wishbone timer: a read that starts one cycle before a tick returns 0 and clears the new interrupt (C39_refuted_lost_tick); proved otherwise. It is true of the CSR timer."
  },
  {
   "property": "C40",
   "status": "proved",
   "theorems": [
    "C40_serial_interrupts"
   ],
   "note": ""
  },
  {
   "property": "C41",
   "status": "proved",
   "theorems": [
    "C41_serial_transmit"
   ],
   "note": ""
  },
  {
   "property": "C42",
   "status": "partial",
   "theorems": [
    "C42_serial_receive",
    "C42_refuted_taken_unseen"
   ],
   "note": "A read returns and takes the ready character. \"Only a read that returned it takes it\" is false: a character completing between the two cycles of a read is marked taken although the read returned the old data (C42_refuted_taken_unseen)."
  },
  {
   "property": "C43",
   "status": "proved",
   "theorems": [
    "C43_soc_bus",
    "C43_soc_access"
   ],
   "note": "amaranth-soc Decoder modelled from its documented behaviour."
  },
  {
   "property": "C44",
   "status": "proved",
   "theorems": [
    "C44_wbmemory",
    "C44_soc_memory"
   ],
   "note": ""
  },
  {
   "property": "C45",
   "status": "proved",
   "theorems": [
    "C45_leds",
    "C45_after_reset"
   ],
   "note": ""
  },
  {
   "property": "C46",
   "status": "proved",
   "theorems": [
    "C46_led_store"
   ],
   "note": ""
  },
  {
   "property": "C47",
   "status": "proved",
   "theorems": [
    "C47_serial_store"
   ],
   "note": ""
  },
  {
   "property": "C48",
   "status": "proved",
   "theorems": [
    "C48_input_loads"
   ],
   "note": ""
  },
  {
   "property": "C49",
   "status": "proved",
   "theorems": [
    "C49_irq_after_reset"
   ],
   "note": ""
  },
  {
   "property": "C50",
   "status": "proved",
   "theorems": [
    "C50_reports_each_instruction_once",
    "C50_order_counts_reports",
    "C50_reports_are_consecutive",
    "C50_constants"
   ],
   "note": ""
  },
  {
   "property": "C51",
   "status": "proved",
   "theorems": [
    "C51_instruction_and_sources"
   ],
   "note": ""
  },
  {
   "property": "C52",
   "status": "partial",
   "theorems": [
    "C52_destination_partial",
    "C52_trap_refuted",
    "C52_trap_reports_stale_destination"
   ],
   "note": "Proved for every instruction that does not trap. For instructions that trap the full statement is false of the code (C52_trap_refuted: a misaligned load that writes nothing is reported as writing 5 to x17), and C52_trap_reports_stale_destination says exactly what is reported instead: no register changes, yet the report names the instruction's rd field (unless it is a branch, store or fence, or a CSR instruction that traps in its second decoding cycle) and repeats the previous report's rd_wdata."
  },
  {
   "property": "C53",
   "status": "proved",
   "theorems": [
    "C53_trap",
    "C53_intr",
    "C53_intr_first"
   ],
   "note": ""
  },
  {
   "property": "C54",
   "status": "proved",
   "theorems": [
    "C54_memory",
    "C54_load",
    "C54_store",
    "C54_no_access"
   ],
   "note": ""
  },
  {
   "property": "C55",
   "status": "partial",
   "theorems": [
    "C55_csr_rdata",
    "C55_csr_wdata",
    "C55_csr_wdata_any_reset",
    "C55_mstatus_partial",
    "C55_read_only_zero",
    "C55_mstatus_trap_refuted",
    "C55_mstatus_mret_refuted",
    "C55_mip",
    "C55_mstatus_trap",
    "C55_mstatus_mret",
    "C55_mip_refuted"
   ],
   "note": "Proved as stated for MIE, MTVEC, MSCRATCH, MEPC, MCAUSE and the read-only-zero CSRs on buses that do not acknowledge in a request's first cycle. MSTATUS as stated for instructions that are not MRET and do not trap; for traps and MRET the statement is false (refuted) and what is reported instead is characterised exactly (C55_mstatus_trap, C55_mstatus_mret). MIP: the statement is false (C55_mip_refuted: a read of MIP whose rd differs from the reported rdata); C55_mip says exactly which cycle's IRQ line is reported."
  },
  {
   "property": "C56",
   "status": "proved",
   "theorems": [
    "C56_programs",
    "C56_demo_shows_primes"
   ],
   "note": "The program text is assembled by a model of the subset of bronzebeard it uses; RAM words are only required to decode to the assembled instructions."
  },
  {
   "property": "C57",
   "status": "proved",
   "theorems": [
    "C57_clock_enable",
    "C57_enable_rate",
    "C57_demo_on_arty",
    "C57_bit_time"
   ],
   "note": "EnableInserter semantics (no register or memory port of the SoC changes while the enable is low) is part of the Amaranth reading."
  },
  {
   "property": "C58",
   "status": "proved",
   "theorems": [
    "C58_rom_image",
    "C58_rom_words",
    "C58_elf_image",
    "C58_core_reads_image",
    "C58_demo_from_reset"
   ],
   "note": "Amaranth's Memory.init slice assignment (length check, truncation to 32 bits) is modelled from its documentation; assembler text is represented by the bytes bronzebeard emits. pyelftools (reading the file) is external; the concatenation of the segments is modelled, and C58_refuted_elf_gap shows what happens to files with gaps."
  },
  {
   "property": "C59",
   "status": "proved",
   "theorems": [
    "C59_csr_transfer",
    "C59_csr_leds",
    "C59_csr_timer",
    "C59_csr_serial_irq",
    "C59_csr_transmit",
    "C59_csr_receive"
   ],
   "note": "amaranth-soc's csr.Bridge, csr.Decoder and WishboneCSRBridge are library code, modelled from their documented protocol (see the header of CsrBus.v)."
  },
  {
   "property": "C60",
   "status": "proved",
   "theorems": [
    "C60_csr_soc_bus",
    "C60_csr_soc_memory",
    "C60_csr_soc_outputs",
    "C60_csr_soc_loads",
    "C60_csr_soc_serial",
    "C60_csr_soc_interrupts"
   ],
   "note": "Loads of every size (signed bytes too) are covered."
  },
  {
   "property": "C61",
   "status": "proved",
   "theorems": [
    "C61_wishbone_soc",
    "C61_csr_soc"
   ],
   "note": "the precondition of the Rust function's safety comment (\"one of the first things in the program\") made exact."
  },
  {
   "property": "C62",
   "status": "proved",
   "theorems": [
    "C62_csr_programs",
    "C62_csr_demo_shows_primes"
   ],
   "note": ""
  },
  {
   "property": "C63",
   "status": "proved",
   "theorems": [
    "C63_wishbone_prints",
    "C63_csr_prints",
    "C63_terminal"
   ],
   "note": "Firmware modelled from the Rust source, not from compiled instructions: each processor step may take any number of cycles. Hypothesis: the firmware does not enable interrupts in the very first cycle after reset (e_move at 0 is Wait)."
  },
  {
   "property": "C64",
   "status": "proved",
   "theorems": [
    "C64_wishbone_stores",
    "C64_csr_stores",
    "C64_wishbone_terminal",
    "C64_csr_terminal"
   ],
   "note": "RX itself is a one-place cell, so a program that does not poll it may lose characters: the theorem is about the sequence of values stored."
  },
  {
   "property": "C65",
   "status": "proved",
   "theorems": [
    "C65_next_instruction",
    "C65_interrupt_latency",
    "C65_wishbone_soc",
    "C65_csr_soc"
   ],
   "note": "An unanswered request (unmapped address) stalls the core for ever, hence the hypothesis."
  },
  {
   "property": "C66",
   "status": "proved",
   "theorems": [
    "C66_dialogue",
    "C66_terminal_reads"
   ],
   "note": "At the level of the Rust source; atoi's parser and char::encode_utf8 are modelled from their documentation (numbers above 255 wrap, as in release builds). A Ctrl-C followed by another character in the same pause is lost: that is what the code does and what the statement says."
  },
  {
   "property": "C67",
   "status": "proved",
   "theorems": [
    "C67_wishbone_prompt",
    "C67_csr_prompt",
    "C67_full_queue_would_hang"
   ],
   "note": "Firmware modelled from the Rust source as for C63; the timer is the model of C39/C59. For slower baud rates (divisor above 1638, a frame longer than a timer period) nothing is claimed. C67_full_queue_would_hang shows the danger is real."
  },
  {
   "property": "C68",
   "status": "proved",
   "theorems": [
    "C68_lockstep",
    "C68_checker_fixes_results"
   ],
   "note": "The checker (RvfiSpec.v) imports nothing of the model and has its own instruction decoder and semantics. It lets the known deviations pass: the interrupt bit of mcause after an exception (C24), cause 11 for the words 0x70-0x72 (C17), rd/rd_wdata of trap reports (C52), mstatus in reports of traps and MRET and the value of MIP (C55). C68_refuses shows 27 single-field changes, a dropped, a repeated and a missing first report refused."
  },
  {
   "property": "C69",
   "status": "partial",
   "theorems": [
    "C69_bus_assumption",
    "C69_environment_covered",
    "C69_short_waits_covered",
    "C69_wishbone_soc_covered",
    "C69_csr_soc_covered",
    "C69_memio_assumption",
    "C69_full_liveness",
    "C69_liveness",
    "C69_second_trap_excluded",
    "C69_refuted_eight_waits",
    "C69_refuted_sequential_traps"
   ],
   "note": "Proved except the last sentence, which is false. The 3-bit wait counter wraps, so runs with a transfer of exactly 8, 16, ... wait states are excluded (C69_bus_assumption is an equivalence; C69_refuted_eight_waits). The nesting counter is decremented only when an MRET is itself reported as a trap, so a run with two traps one after the other, the first one's handler having returned, is excluded (C69_second_trap_excluded, C69_refuted_sequential_traps). C69_assumptions_consistent: all assumptions hold together on an endless run."
  },
  {
   "property": "C70",
   "status": "proved",
   "theorems": [
    "C70_enable",
    "C70_reset",
    "C70_reset_disabled_keeps_registers"
   ],
   "note": "EnableInserter and ResetInserter are modelled by their documented effect: flip-flops are reset regardless of the enable, memory ports are only gated. C70_reset_applies, C70_store_quashed (the test's program), C70_ack_lost: an acknowledgement given in a disabled cycle is lost, so the slave has to be in the same enabled domain."
  },
  {
   "property": "C71",
   "status": "partial",
   "theorems": [
    "C71_zero_masks",
    "C71_zero_masks_read",
    "C71_mstatus_const_refuted",
    "C71_mstatus_const_partial",
    "C71_mstatus_const_read_partial",
    "C71_zero",
    "C71_mscratch_any",
    "C71_illegal_csrs",
    "C71_covers"
   ],
   "note": "All but the mstatus line, which is false as declared: MPIE (bit 7) can be set (C71_mstatus_const_refuted), as one of the file's own cover statements demands; with bit 7 left out too it is proved (C71_mstatus_const_partial, C71_mstatus_const_read_partial). A mask is read as the set of bits checked; riscv-formal is not in the repository. C71_applies."
  },
  {
   "property": "C72",
   "status": "proved",
   "theorems": [
    "C72_bus",
    "C72_flat_memory",
    "C72_verdict",
    "C72_ends",
    "C72_watchdog",
    "C72_unanswered",
    "C72_signature",
    "C72_start_refuted"
   ],
   "note": "For memories that start at address 0, as in every test. With another start the memory process is wrong: it writes memory[addr] but reads memory[addr - start] (C72_start_refuted). Assumed of the simulator: ticks sample the values before the edge, processes run before testbenches. C72_applies runs passing, failing, hanging and dumping programs."
  },
  {
   "property": "C73",
   "status": "proved",
   "theorems": [
    "C73_timing",
    "C73_system",
    "C73_reset_forgets"
   ],
   "note": "C73_system discharges the hypothesis on acknowledgements for the SoC's memory. C73_applies (two different secrets), C73_shift_leaks (the shift-amount hypothesis cannot be dropped), C73_reset_applies."
  },
  {
   "property": "C74",
   "status": "proved",
   "theorems": [
    "C74_fails_only_for_a_reason",
    "C74_passes_iff",
    "C74_compares"
   ],
   "note": "C74_handwritten, C74_csr_r0, C74_csrw, C74_exception, C74_witness: the repository's own sequence and witness tests, with the values the repository expects, pass on the model; C74_detects: a wrong list is reported."
  },
  {
   "property": "C75",
   "status": "proved",
   "theorems": [
    "C75_interrupts_transparent",
    "C75_system"
   ],
   "note": "C75_system: the core with the SoC's memory; there the n-th instruction of the run without interrupts exists. C75_applies: a counting program with a handler that saves x5 in MSCRATCH and counts interrupts."
  },
  {
   "property": "C76",
   "status": "proved",
   "theorems": [
    "C76_verdict_of_isa",
    "C76_signature_of_isa",
    "C76_upstream_suite",
    "C76_expected_failures"
   ],
   "note": "Converse of C72: C72 says what a returned value means, C76 that the test returns. The binaries are copied from tests/upstream/binaries word by word (trailing zero words dropped, the memory is zero there anyway). C76_applies; every binary is a non-trivial instance."
  },
  {
   "property": "C77",
   "status": "proved",
   "theorems": [
    "C77_hex_file",
    "C77_demo_hex",
    "C77_random"
   ],
   "note": "The file's text is modelled character by character; the reader in the statement is a separate small specification. C77_applies. Python's format specification 08x is modelled from its documentation."
  },
  {
   "property": "C78",
   "status": "proved",
   "theorems": [
    "C78_single_port",
    "C78_hazard_free",
    "C78_needs_transparency"
   ],
   "note": "Answers the note in RegFile's documentation. The alternative RAM replaces the value of the read port's output register in cycles with a write (or a collision); everything else is the modelled design. C78_single_port_applies, C78_hazard_free_applies."
  },
  {
   "property": "C79",
   "status": "proved",
   "theorems": [
    "C79_verdict",
    "C79_verdict_of_isa",
    "C79_primes",
    "C79_primes_wrong"
   ],
   "note": "The comparison ignores WE: a load from the port counts as an output (C79_applies, finding 20), so 'transfers at the port' rather than 'stores' is what the verdict is about; for programs that use the port only by word stores (isa_io) the two coincide. An instruction budget of 940 between outputs keeps the timeout from firing; the prime program is the repository's text, assembled by the model's assembler."
  },
  {
   "property": "C80",
   "status": "proved",
   "theorems": [
    "C80_every_cycle",
    "C80_resets",
    "C80_commit"
   ],
   "note": "Core and WBMemory only, without the other peripherals (any interrupt waveform stands for theirs). The registers at each boot are left arbitrary in the specification. Reset is synchronous, as in the design; the memory array and its ports have no reset (Amaranth). C80_applies runs the commit program with two resets, and shows that the wrong store order is caught."
  },
  {
   "property": "C81",
   "status": "proved",
   "theorems": [
    "C81_every_cycle",
    "C81_resets",
    "C81_boot_count",
    "C81_atomic_refuted",
    "C81_self_modify"
   ],
   "note": "Core and WBMemory only. That registers are always those of whole instructions is false (C81_atomic_refuted: a reset during slli leaves 2 where only 0, 1 and 16 are possible), so the statement has the exception for shifts; the comment at microcode.asm:304-306 says the user never sees the intermediate result (DESIGN.md, finding 21). mepc is not covered (an interrupted trap entry can have written it). C81_applies: three boots counted; C81_csr_between: the moment between the two writes of csrrw. C81_self_modify settles the question of the TODO at test_top.py:658-661 for the test's own program: the first instruction is never overwritten."
  },
  {
   "property": "C82",
   "status": "proved",
   "theorems": [
    "C82_soc_programs",
    "C82_csr_soc_programs"
   ],
   "note": "What the devices answer is that of C39 to C48 and C59, C60 (here only: the same word). The interrupt line is sampled one, two and three cycles after the fetch, as in C33. Accesses outside the memory map hang (C43), so there is no later fetch. C83_applies and C83_csr_applies run a program with RAM and LED stores from power-on."
  },
  {
   "property": "C83",
   "status": "proved",
   "theorems": [
    "C83_every_cycle",
    "C83_restart",
    "C83_resets",
    "C83_commit",
    "C83_csr_every_cycle",
    "C83_csr_restart",
    "C83_csr_resets",
    "C83_csr_commit"
   ],
   "note": "The registers at each boot are arbitrary here (C81 relates them for core and memory, C84 for the SoC). Reset values of peripherals as in C45 to C49 (Amaranth resets every flip-flop of the domain; memory arrays and their ports have no reset). C83_applies, C83_csr_applies: two resets, the first between the two stores, the second clearing the LEDs but not the RAM."
  },
  {
   "property": "C84",
   "status": "proved",
   "theorems": [
    "C84_every_cycle",
    "C84_resets",
    "C84_boot_count",
    "C84_csr_every_cycle",
    "C84_csr_resets",
    "C84_csr_boot_count"
   ],
   "note": "Within one boot the events (interrupt line, device data, code outside RAM) are those that happened; across resets they are existential. The event data of a load still waiting on the bus is unconstrained but does not matter for what the theorem says. Shifts are the exception as in C81 (C81_atomic_refuted). C84_applies: three boots on both SoCs, and a load from an unmapped address that hangs until a reset."
  },
  {
   "property": "C85",
   "status": "proved",
   "theorems": [
    "C85_soc",
    "C85_soc_store",
    "C85_csr_soc",
    "C85_csr_soc_store"
   ],
   "note": "Extends C75 (core with one memory, two runs) to both SoCs, with device reads and writes, and compares with the machine of C82 run without interrupts. The program takes no exceptions, does not use MSCRATCH, MEPC, MCAUSE or MIP nor read MSTATUS into a register (these show the interrupts), and is fetched from its own RAM. What the program's device reads deliver is as it was (a handler may change it, e.g. by reading a received character). C85_applies and C85_csr_applies: a program copying GPIO to LEDs and RAM with a serial interrupt handler, on both SoCs; on the second it is interrupted between reading the GPIO and lighting the LEDs."
  },
  {
   "property": "C86",
   "status": "proved",
   "theorems": [
    "C86_power_up",
    "C86_soc",
    "C86_csr_soc",
    "raises_iff"
   ],
   "note": "PowerUp.v: defined gives the set of registers the program has given a value, by the instructions fetched so far; needs lists the uses; careful says up to cycle n no use of an undefined register. Only the first of the two runs has to be careful. C86_soc and C86_csr_soc put both SoCs around the core. C86_applies and C86_csr_applies run the interrupt program of C85 from two states that differ in every word of the register file; C86_careful_is_needed shows for a store, a branch, a shift, an MRET and a trap that the outputs do depend on an undefined register that is used."
  },
  {
   "property": "C87",
   "status": "proved",
   "theorems": [
    "C87_trap_and_emulate",
    "C87_system",
    "raise_at_iff"
   ],
   "note": "Emulate.v: emulated counts the program's instructions (ordinary ones, served ones; interrupts handled as in C75 do not count), served says when a trap and the MRET that ends it implement the service, v_at is the machine with the service. respects says the service looks at x1-x31, the PC and the program's memory only. C87_system puts the memory of the SoC behind the bus and speaks of its array. C87_applies runs a program that multiplies with MUL, emulated by a handler that adds, twice."
  },
  {
   "property": "C88",
   "status": "proved",
   "theorems": [
    "C88_soc",
    "C88_csr_soc"
   ],
   "note": "EmulateSoc.v: emulated_io counts ordinary instructions (C85) and served ones; v_io is the RV32I machine with RAM and devices and one more kind of instruction. C88_applies and C88_csr_applies run, on each SoC, a program that asks for the GPIO pins with ECALL twice and shows them on the LEDs."
  },
  {
   "property": "C89",
   "status": "proved",
   "theorems": [
    "C89_run_time",
    "C89_simulator",
    "C89_device_simulator",
    "C89_device_access",
    "C89_system",
    "C89_soc",
    "C89_csr_soc"
   ],
   "note": "Clocked.v: until is the timing table (cycles to the request of the next fetch), clocked and io_clocked are Isa.v with a clock; answers_exactly says how long each request waits. ClockedSoc.v instantiates the SoCs. C89_applies compares the simulator with a 200-cycle run with an interrupt; C89_soc_applies and C89_csr_soc_applies do so on both SoCs, with GPIO, LED and serial accesses and a serial interrupt: every fetch cycle agrees."
  },
  {
   "property": "C90",
   "status": "proved",
   "theorems": [
    "C90_soc_store",
    "C90_csr_soc_store",
    "C90_soc_load",
    "C90_csr_soc_load",
    "C90_soc_waveform",
    "C90_csr_soc_waveform",
    "C90_soc",
    "C90_csr_soc"
   ],
   "note": "Waves.v: driven and wave compute the waveform from the simulator of C89; settled is the condition on each instruction of a closed program. output says what an output register is on the bus. WavesSoc.v shows that both peripherals are, and gives the theorems for both SoCs. C90_soc_applies and C90_csr_soc_applies run a bit-banging loop on both SoCs with moving inputs and a pending serial interrupt: every edge is where the circuit has it."
  },
  {
   "property": "C91",
   "status": "proved",
   "theorems": [
    "C91_run",
    "C91_devices",
    "C91_soc",
    "C91_csr_soc"
   ],
   "note": "Whole.v: the simulator (wh_step) for any devices, and the proof for any devices that see only requests outside RAM; instructions may come from devices. WholeSoc.v: both SoCs; the peripherals' step functions are those of Periph.v and CsrBus.v. In the CSR variant the peripherals' registers for write data are compared only while a write strobe is up (same_csr). The only condition is that the simulator has not come to an unmapped address (atto_stuck, csr_stuck). C91_soc_applies and C91_csr_soc_applies run 60 instructions with interrupts that send letters on the serial line while the main loop counts on the LEDs; C91_soc_code_in_gpio runs instructions from the GPIO pins."
  },
  {
   "property": "C92",
   "status": "proved",
   "theorems": [
    "C92_hang",
    "C92_hang_iff",
    "C92_soc",
    "C92_soc_iff",
    "C92_csr_soc",
    "C92_csr_soc_iff"
   ],
   "note": "wh_stuck (Whole.v) is the simulator's prediction; request_starts says that the request was not there the cycle before. C92_hang for any devices and memory map under the hypothesis that unmapped addresses are not acknowledged, which soc_nobody and csr_nobody prove of the SoCs. C92_soc_applies and C92_csr_soc_applies: a program that sends a letter, lights the LEDs and is lost, by a load or by a jump."
  },
  {
   "property": "C93",
   "status": "proved",
   "theorems": [
    "C93_soc_store",
    "C93_csr_soc_store",
    "C93_soc_line",
    "C93_csr_soc_line",
    "C93_soc",
    "C93_csr_soc"
   ],
   "note": "C93_soc_store/C93_csr_soc_store: one store, every environment. C93_soc_line/C93_csr_soc_line: a whole run with devices and interrupts, the simulator being given what devices return and the interrupt line. C93_soc/C93_csr_soc: programs with interrupts disabled that read only RAM and GPIO; nothing is given to the simulator but the program and the GPIO pins. The frame list and the line it stands for are defined in Lines.v without reference to the transmitter's registers."
  },
  {
   "property": "C94",
   "status": "proved",
   "theorems": [
    "C94_soc_load",
    "C94_csr_soc_load",
    "C94_soc_receive",
    "C94_csr_soc_receive",
    "C94_tolerance",
    "C94_soc_silent",
    "C94_csr_soc_silent",
    "C94_soc_asks",
    "C94_csr_soc_asks",
    "C94_soc_program",
    "C94_csr_soc_program",
    "C94_link",
    "C94_link_back"
   ],
   "note": "GPIO loads on AttoSoC at cycle t + 5 are C90_soc_load. On AttoSoC a read takes the character in both of its cycles, so `asks` counts every cycle of a request; on the CSR variant only the first counts. The wire is ideal and both boards count the cycles of one clock; the bit lengths may differ, within limits that C94_tolerance shows to be exact."
  },
  {
   "property": "C95",
   "status": "proved",
   "theorems": [
    "C95_soc_wakes",
    "C95_csr_soc_wakes",
    "C95_soc_program",
    "C95_csr_soc_program"
   ],
   "note": "The flag is in addition to the transmitter's and the timer's, which may raise the line earlier. `wakes` counts the bus cycles that ask for the flags (on the CSR variant only the first cycle of a read clears them), `program` the instructions."
  }
 ]
}