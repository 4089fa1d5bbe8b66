(** * What the property theorems rest on

    Generated by tools/gen_assumptions.py from MANIFEST.json: all property theorems in one
    tuple, so that one [Print Assumptions] covers them all.  It prints "Closed under the
    global context". *)
From Verif Require PropsBus PropsFrame PropsIsa PropsInv Hazard Latency InputsMatter AsmProofs Layout SrcMux Memory SocMem Uart Periph Soc SocIo RvfiTop RvfiEx RvfiTrapRd RvfiMip SocProg Primes Arty Rom CsrBus CsrSoc BusDetect CsrSocProg FirmwareSys LatencySoc Automaton FirmwareEcho RvfiLock Wrapper WrapperEx Enable Checks Harness Leak SeqTest Transparent Upstream UpstreamEx HexFile RegRam LoopTest Crash CrashReg IoMem CsrIoMem CrashSoc IoTransparent PowerUp PowerUpSoc Emulate EmulateSoc Clocked ClockedSoc WavesSoc Whole WholeSoc LinesSoc Reads Wake.
Definition all_properties :=
 (@PropsBus.C01_requests_are_architectural,
  @PropsBus.C01_requests_are_architectural_weak_ack,
  @PropsFrame.C01_riscv_unless_mcause_read,
  @PropsFrame.C01_riscv_without_deviation,
  @PropsIsa.C02_registers_match_reference,
  @PropsInv.C03_reset_from_any_state,
  @PropsInv.C04_x0_is_zero,
  @PropsBus.C05_request_held,
  @PropsBus.C06_drop_after_ack,
  @Hazard.C07_data_without_wait_partial,
  @Hazard.C07_refuted_combinational_slave,
  @PropsBus.C08_never_hangs,
  @PropsBus.C08_bound_only_shift_31,
  @PropsInv.C09_microcode_stays_in_program,
  @PropsBus.C10_signals_well_formed,
  @PropsIsa.C11_misaligned,
  @PropsIsa.C12_store,
  @PropsIsa.C13_load,
  @PropsIsa.C14_op_imm,
  @PropsIsa.C14_op_reg,
  @PropsIsa.C14_lui_auipc,
  @PropsIsa.C15_branch,
  @PropsIsa.C15_jal,
  @PropsIsa.C15_jalr,
  @PropsIsa.C16_illegal_words_trap,
  @PropsIsa.C16_legal_words_do_not,
  @PropsIsa.C17_cause_2_partial,
  @PropsIsa.C17_refuted_not_quite_ecall,
  @PropsIsa.C18_csr_access,
  @PropsIsa.C19_csr_read_modify_write,
  @PropsIsa.C20_read_only_zero,
  @PropsIsa.C21_exception,
  @PropsIsa.C21_interrupt,
  @PropsIsa.C21_no_other_traps,
  @PropsIsa.C22_mret,
  @PropsIsa.C22_fence_wfi,
  @PropsIsa.C23_interrupt_taken,
  @PropsIsa.C23_interrupt_only_if,
  @PropsIsa.C24_interrupt_bit_partial,
  @PropsIsa.C24_refuted_sticky_bit,
  @PropsIsa.C25_mip,
  @PropsBus.C26_cycles_per_instruction,
  @PropsBus.C26_trap_timing,
  @Latency.C26_late_traps,
  @PropsFrame.C27_other_registers_unchanged,
  @PropsFrame.C27_other_csrs_unchanged,
  @PropsFrame.C27_only_stores_write,
  @PropsBus.C28_only_acked_inputs_matter,
  @InputsMatter.C28_inputs_that_matter,
  @PropsFrame.C29_masked_irq_invisible,
  @AsmProofs.C30_rom_says_what_source_says,
  @Layout.C30_shipped_rom,
  @Layout.C30_pack_unpack,
  @Layout.C30_fields_are_layout_view,
  @Layout.C30_rom_reads_assembled_words,
  @Layout.C31_layout_correct_iff_partial,
  @Layout.C31_refuted_two_gaps,
  @Layout.C31_accepted_fields_match_field_map,
  @SrcMux.C32_datapathsrcmux_equivalent,
  @Memory.C33_flat_memory,
  @SocMem.C33_wbmemory_system,
  @PropsInv.C34_reserved_bits,
  @PropsFrame.C35_only_software_sets_mie,
  @PropsFrame.C35_no_nested_interrupt,
  @Uart.C36_transmit_framing,
  @Uart.C37_receive,
  @Uart.C37_unread_character_kept,
  @Uart.C38_loopback,
  @Uart.C38_stream,
  @Periph.C39_timer_irq,
  @Periph.C39_timer_read_value,
  @Periph.C39_cleared_irq_is_reported_partial,
  @Periph.C39_refuted_lost_tick,
  @Periph.C39_csr_timer,
  @Periph.C40_serial_interrupts,
  @Periph.C41_serial_transmit,
  @Periph.C42_serial_receive,
  @Periph.C42_refuted_taken_unseen,
  @Soc.C43_soc_bus,
  @Soc.C43_soc_access,
  @SocIo.C44_wbmemory,
  @SocIo.C44_soc_memory,
  @SocIo.C45_leds,
  @SocIo.C45_after_reset,
  @SocIo.C46_led_store,
  @SocIo.C47_serial_store,
  @SocIo.C48_input_loads,
  @SocIo.C49_irq_after_reset,
  @RvfiTop.C50_reports_each_instruction_once,
  @RvfiTop.C50_order_counts_reports,
  @RvfiTop.C50_reports_are_consecutive,
  @RvfiTop.C50_constants,
  @RvfiTop.C51_instruction_and_sources,
  @RvfiTop.C52_destination_partial,
  @RvfiEx.C52_trap_refuted,
  @RvfiTrapRd.C52_trap_reports_stale_destination,
  @RvfiTop.C53_trap,
  @RvfiTop.C53_intr,
  @RvfiTop.C53_intr_first,
  @RvfiTop.C54_memory,
  @RvfiTop.C54_load,
  @RvfiTop.C54_store,
  @RvfiTop.C54_no_access,
  @RvfiTop.C55_csr_rdata,
  @RvfiTop.C55_csr_wdata,
  @RvfiTop.C55_csr_wdata_any_reset,
  @RvfiTop.C55_mstatus_partial,
  @RvfiTop.C55_read_only_zero,
  @RvfiEx.C55_mstatus_trap_refuted,
  @RvfiEx.C55_mstatus_mret_refuted,
  @RvfiMip.C55_mip,
  @RvfiMip.C55_mstatus_trap,
  @RvfiMip.C55_mstatus_mret,
  @RvfiEx.C55_mip_refuted,
  @SocProg.C56_programs,
  @Primes.C56_demo_shows_primes,
  @Arty.C57_clock_enable,
  @Arty.C57_enable_rate,
  @Arty.C57_demo_on_arty,
  @Arty.C57_bit_time,
  @Rom.C58_rom_image,
  @Rom.C58_rom_words,
  @Rom.C58_elf_image,
  @Rom.C58_core_reads_image,
  @Rom.C58_demo_from_reset,
  @CsrBus.C59_csr_transfer,
  @CsrBus.C59_csr_leds,
  @CsrBus.C59_csr_timer,
  @CsrBus.C59_csr_serial_irq,
  @CsrBus.C59_csr_transmit,
  @CsrBus.C59_csr_receive,
  @CsrSoc.C60_csr_soc_bus,
  @CsrSoc.C60_csr_soc_memory,
  @CsrSoc.C60_csr_soc_outputs,
  @CsrSoc.C60_csr_soc_loads,
  @CsrSoc.C60_csr_soc_serial,
  @CsrSoc.C60_csr_soc_interrupts,
  @BusDetect.C61_wishbone_soc,
  @BusDetect.C61_csr_soc,
  @CsrSocProg.C62_csr_programs,
  @CsrSocProg.C62_csr_demo_shows_primes,
  @FirmwareSys.C63_wishbone_prints,
  @FirmwareSys.C63_csr_prints,
  @FirmwareSys.C63_terminal,
  @FirmwareSys.C64_wishbone_stores,
  @FirmwareSys.C64_csr_stores,
  @FirmwareSys.C64_wishbone_terminal,
  @FirmwareSys.C64_csr_terminal,
  @Latency.C65_next_instruction,
  @Latency.C65_interrupt_latency,
  @LatencySoc.C65_wishbone_soc,
  @LatencySoc.C65_csr_soc,
  @Automaton.C66_dialogue,
  @Automaton.C66_terminal_reads,
  @FirmwareEcho.C67_wishbone_prompt,
  @FirmwareEcho.C67_csr_prompt,
  @FirmwareEcho.C67_full_queue_would_hang,
  @RvfiLock.C68_lockstep,
  @RvfiLock.C68_checker_fixes_results,
  @Wrapper.C69_bus_assumption,
  @Wrapper.C69_environment_covered,
  @Wrapper.C69_short_waits_covered,
  @Wrapper.C69_wishbone_soc_covered,
  @Wrapper.C69_csr_soc_covered,
  @Wrapper.C69_memio_assumption,
  @Wrapper.C69_full_liveness,
  @Wrapper.C69_liveness,
  @Wrapper.C69_second_trap_excluded,
  @WrapperEx.C69_refuted_eight_waits,
  @WrapperEx.C69_refuted_sequential_traps,
  @Enable.C70_enable,
  @Enable.C70_reset,
  @Enable.C70_reset_disabled_keeps_registers,
  @Checks.C71_zero_masks,
  @Checks.C71_zero_masks_read,
  @Checks.C71_mstatus_const_refuted,
  @Checks.C71_mstatus_const_partial,
  @Checks.C71_mstatus_const_read_partial,
  @Checks.C71_zero,
  @Checks.C71_mscratch_any,
  @Checks.C71_illegal_csrs,
  @Checks.C71_covers,
  @Harness.C72_bus,
  @Harness.C72_flat_memory,
  @Harness.C72_verdict,
  @Harness.C72_ends,
  @Harness.C72_watchdog,
  @Harness.C72_unanswered,
  @Harness.C72_signature,
  @Harness.C72_start_refuted,
  @Leak.C73_timing,
  @Leak.C73_system,
  @Leak.C73_reset_forgets,
  @SeqTest.C74_fails_only_for_a_reason,
  @SeqTest.C74_passes_iff,
  @SeqTest.C74_compares,
  @Transparent.C75_interrupts_transparent,
  @Transparent.C75_system,
  @Upstream.C76_verdict_of_isa,
  @Upstream.C76_signature_of_isa,
  @UpstreamEx.C76_upstream_suite,
  @UpstreamEx.C76_expected_failures,
  @HexFile.C77_hex_file,
  @HexFile.C77_demo_hex,
  @HexFile.C77_random,
  @RegRam.C78_single_port,
  @RegRam.C78_hazard_free,
  @RegRam.C78_needs_transparency,
  @LoopTest.C79_verdict,
  @LoopTest.C79_verdict_of_isa,
  @LoopTest.C79_primes,
  @LoopTest.C79_primes_wrong,
  @Crash.C80_every_cycle,
  @Crash.C80_resets,
  @Crash.C80_commit,
  @CrashReg.C81_every_cycle,
  @CrashReg.C81_resets,
  @CrashReg.C81_boot_count,
  @CrashReg.C81_atomic_refuted,
  @CrashReg.C81_self_modify,
  @IoMem.C82_soc_programs,
  @CsrIoMem.C82_csr_soc_programs,
  @IoMem.C83_every_cycle,
  @IoMem.C83_restart,
  @IoMem.C83_resets,
  @IoMem.C83_commit,
  @CsrIoMem.C83_csr_every_cycle,
  @CsrIoMem.C83_csr_restart,
  @CsrIoMem.C83_csr_resets,
  @CsrIoMem.C83_csr_commit,
  @CrashSoc.C84_every_cycle,
  @CrashSoc.C84_resets,
  @CrashSoc.C84_boot_count,
  @CrashSoc.C84_csr_every_cycle,
  @CrashSoc.C84_csr_resets,
  @CrashSoc.C84_csr_boot_count,
  @IoTransparent.C85_soc,
  @IoTransparent.C85_soc_store,
  @IoTransparent.C85_csr_soc,
  @IoTransparent.C85_csr_soc_store,
  @PowerUp.C86_power_up,
  @PowerUpSoc.C86_soc,
  @PowerUpSoc.C86_csr_soc,
  @PowerUp.raises_iff,
  @Emulate.C87_trap_and_emulate,
  @Emulate.C87_system,
  @Emulate.raise_at_iff,
  @EmulateSoc.C88_soc,
  @EmulateSoc.C88_csr_soc,
  @Clocked.C89_run_time,
  @Clocked.C89_simulator,
  @Clocked.C89_device_simulator,
  @Clocked.C89_device_access,
  @Clocked.C89_system,
  @ClockedSoc.C89_soc,
  @ClockedSoc.C89_csr_soc,
  @WavesSoc.C90_soc_store,
  @WavesSoc.C90_csr_soc_store,
  @WavesSoc.C90_soc_load,
  @WavesSoc.C90_csr_soc_load,
  @WavesSoc.C90_soc_waveform,
  @WavesSoc.C90_csr_soc_waveform,
  @WavesSoc.C90_soc,
  @WavesSoc.C90_csr_soc,
  @Whole.C91_run,
  @Whole.C91_devices,
  @WholeSoc.C91_soc,
  @WholeSoc.C91_csr_soc,
  @Whole.C92_hang,
  @Whole.C92_hang_iff,
  @WholeSoc.C92_soc,
  @WholeSoc.C92_soc_iff,
  @WholeSoc.C92_csr_soc,
  @WholeSoc.C92_csr_soc_iff,
  @LinesSoc.C93_soc_store,
  @LinesSoc.C93_csr_soc_store,
  @LinesSoc.C93_soc_line,
  @LinesSoc.C93_csr_soc_line,
  @LinesSoc.C93_soc,
  @LinesSoc.C93_csr_soc,
  @Reads.C94_soc_load,
  @Reads.C94_csr_soc_load,
  @Reads.C94_soc_receive,
  @Reads.C94_csr_soc_receive,
  @Reads.C94_tolerance,
  @Reads.C94_soc_silent,
  @Reads.C94_csr_soc_silent,
  @Reads.C94_soc_asks,
  @Reads.C94_csr_soc_asks,
  @Reads.C94_soc_program,
  @Reads.C94_csr_soc_program,
  @Reads.C94_link,
  @Reads.C94_link_back,
  @Wake.C95_soc_wakes,
  @Wake.C95_csr_soc_wakes,
  @Wake.C95_soc_program,
  @Wake.C95_csr_soc_program).
Print Assumptions all_properties.
