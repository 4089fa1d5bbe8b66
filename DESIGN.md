# Formal model of cr1901/sentinel in Rocq (Coq 8.16.1)

## Approach
Sentinel is a synchronous circuit described in Amaranth.  One clock cycle is one
application of a total Gallina function `step : state -> input -> state`
(`theories/Cpu.v`), where `state` has one field per synchronous register/memory
of the design and `input` is `{rst, ack, dat_r, irq}`.  Bus outputs are functions
of `state` only (Moore).  Every component (`ALU`, muxes, aligners, decoder parts,
register/CSR file, sequencer, exception router) is a separate Gallina function
transcribed branch by branch from its `elaborate` method, with file/line citation.

The microprogram is not transcribed by hand: `theories/MicrocodeText.v` contains the text of
`src/sentinel/microcode.asm` and `theories/Asm.v` is a Gallina preprocessor+assembler
(modelling m5pre/m5meta as used by `ucoderom.py`) that produces the 256x48-bit ROM.

Independent specification: `theories/Isa.v` is a small RV32I_Zicsr M-mode reference
machine written from the RISC-V manual (decode to an AST, execute), not using any
model helper.  It is *interactive*: it exposes the request it wants next, and
consumes acknowledged transactions.

Main proof: a simulation between cycles of the circuit and transactions of the
reference machine.  Wait points (fetch wait, fast epilogue, load/store waits) are
macro-states; straight-line microcode blocks between them are discharged by
symbolic execution; the shift loops by induction on the count; the global theorem by
induction on time.  All other ISA properties are corollaries of the simulation plus
short facts about the reference machine, or invariants over `step`.

## Per property plan
| id | plan |
|----|------|
| C01,C02 | simulation theorem, induction over cycles |
| C03 | case analysis over any stale microinstruction; symbolic execution of reset routine |
| C04,C34 | invariants derived from simulation |
| C05,C06,C08,C09,C10 | from the segment lemma of the simulation |
| C07 | refuted with concrete witness |
| C11-C15,C19-C23,C25,C27 | corollaries: hardware block lemma stated per instruction class |
| C16,C18 | theorem over all words, via spec decoder |
| C17,C24 | refuted (witness) + partial theorem |
| C26 | block lengths as function of the instruction |
| C28,C29 | two-run theorems |
| C30 | assembler run in the kernel (vm_compute) + round-trip theorem |
| C31 | model of `_create_field_layout`; refuted with two gaps, partial for at most one gap |
| C32 | direct proof over all inputs |
| C33 | composition with a memory slave |
| C35 | ISA invariant lifted through simulation |
| C36-C38 | UART model with general divisor and data width; induction over bit times and over the stream |
| C39-C42,C45 | peripheral models on an arbitrary bus waveform; exact next-state/history characterisations; refutation witnesses |
| C43,C44 | whole SoC as one step function; core = `run` on the waveform the SoC produces, so all core theorems apply |
| C46-C49 | composition of the ISA theorems (C12, C13, C27) with the peripheral theorems through C43 |
| C56 | assembler for the firmware text; program-level semantics (`psteps`) of programs that only store to the LEDs; every instruction takes the SoC from one fetch to the next with the LED history extended accordingly; the firmware by symbolic execution, loops by induction, primality from `Znumtheory` |
| C57 | the divider and the enable as a step function around `soc_step`; simulation with the number of enabled clocks as time; closed form for that number |
| C58 | `from_bytes`, the slicing comprehension and the slice assignment as list functions; byte-level characterisation; composed with C44 for what the core reads |
| C59 | `csrp_step`: bridge sequencer, decoder windows, register multiplexers and the three peripherals; invariant relating the bridge phase to the start of the request, then each peripheral's registers are driven exactly by the specification's `reading`/`writing` events |
| C60 | `csoc_step` composes the core, the RAM and the CSR peripherals; an instruction's data transfer is matched with the bridge's request that it starts, and C59 gives the effect |
| C61 | C25 (what a MIP read returns) with C49 and, for the CSR SoC, C59's conditions for the timer and serial interrupts |
| C62 | `ProgGen.v` proves C56's argument for any system satisfying `hosts` (bus well-behaved, RAM and LED register answered, LEDs follow stores); `csoc_hosts` shows the CSR SoC does |
| C63 | `Firmware.v` models the driver as a state machine whose pace is arbitrary, and a serial port by the facts the driver relies on (`port`); the invariants (queue ++ sent = printed; busy implies transmitting or announced) are proved there, `FirmwareSys.v` shows that both ports provide those facts in closed loop; `FirmwareEx.v` exhibits a fair infinite history on each SoC |
| C64 | same model as C63: invariant relating the receiver, its interrupt bit and the handler's position; the terminal theorems compose with C38 |
| C65 | combine the per-instruction cycle counts (Timed.delay_bound) with the bus machine of Main.v: from a fetch, idle time plus at most two waits; the latency is the fetch bound plus C26's trap timing; the SoC bounds come from C43/C60 |
| C66 | functional model of do_demo/set_rule/read_num/main; loop invariant for the in-place row update (left part new generation, right part old, two saved cells), induction over pauses |
| C67 | driver, port and timer in one system; every three counted timer interrupts a frame has ended and its interrupt been handled, so 144 of them remove at least 48 bytes; what `set_rule` prints is at most 38 bytes |
| C68 | a stand-alone checker (`RvfiSpec.v`) folded over the list of reports; its decoder and semantics are proved equal to the reference decoder; invariant: what the checker knows is true of the registers at the last fetch (C50-C55, C12-C25 give one step) |
| C69 | the wrapper's counters and assumptions run next to core and harness; the wait counter is shown to be the number of wait states mod 8, C65 gives the liveness bounds, and between two traps the nesting counter is followed cycle by cycle |
| C70 | one gated step; induction on the number of cycles shows a run is the run over the enabled cycles, and C01's reset theorem for the core gives the rest |
| C71 | C55 (what RVFI reports about CSRs), C19, C20 and C18 (what CSR instructions do) and C34 (reserved bits); covers by one run |
| C72 | all processes as one step next to the core; ACK is shown to be given only in the cycle after a request (which gives C01-C33 for the run), then invariants tie the list to C33's flat memory and the host's variable to its contents; C08 bounds the time without a request, and the microcode's waiting loops are checked to be single addresses |
| C73 | Leak.v: induction over cycles on the cycle-timed reference machine of both runs (same idle counter and kind of request; for reset, states equal up to registers software can see). |
| C74 | SeqTest.v: the test bench as a state machine beside core and memory process; invariant tying its remaining list to the number of fetches so far; the four test_seq programs and the witness test replayed by computation. |
| C75 | Transparent.v: decomposition of a run into program instructions and handled interrupts (inductive predicate over fetch cycles); simulation on the flat-memory machine of C33, one case per instruction; MRET by C22. |
| C76 | `Upstream.v`: `isa_test` runs the flat ISA machine with the host's two stores; induction over its instructions with C08/next_request (a request follows each transfer within 67 cycles), the harness's answer in one cycle, and the flat-memory refinement (C33); the watchdog and the tick limit are excluded by counting. `UpstreamEx.v`: the 53 binaries on the ISA machine, from a symbolic power-up state and interrupt line, by computation in the kernel; then C76_verdict_of_isa. |
| C77 | `HexFile.v`: the formatted text as a list of characters; a reader for such files; induction over digits and words. |
| C78 | `RegRam.v`: a core whose register RAM delivers other values in write cycles runs beside the design; invariant: the two differ in the output register of the RAM only, and only while control is at one of 18 microinstructions that do not use it (checked over the whole microcode ROM); age of the request when the epilog is reached. |
| C79 | model of the testbench, timeout, memory process and watchdog as one tick function over the core (`LoopTest.ltick`, reusing `Harness.mem_tick`); invariant that the memory process, testbench and core agree on the pending transfer; then an induction over instructions against `isa_io` (an ISA-level test with a port) giving the verdict, and evaluation of `isa_io` on the prime program |
| C80 | `Crash.v`: the core and WBMemory under a reset waveform; between resets this is `SocMem.system`; in every cycle the memory is compared with the flat machine (C33's `tracks_all` and the memory invariant `inv_all`): equal, or the present instruction is a store not yet on the bus; induction over the resets (a reset state is `fresh`, C03) composes the boots; the commit program by an invariant over its six instructions on the ISA machine |
| C81 | `CrashReg.v`: the microcode address of each cycle (RegRam's `J`) and tables over the 256 words show that between two fetches at most one cycle writes a general register, and at most one writes mtvec/mscratch, outside the shift routines; those are followed cycle by cycle (induction on the amount); with C80's memory argument every cycle of a life is described; induction over the resets composes the lives; the counting program by an invariant on the ISA machine |
| C82 | `IoMem.v`: generic over the predicate `ram` and the mirroring: induction over cycles like C33, with the list of events (interrupt line, device words) built along; instances with C44's and C60's RAM theorems |
| C83 | `IoMem.v`, `CsrIoMem.v`: the SoC step with a reset input; without reset it is `soc_step`; the memory array in every cycle is the RAM after the transfer of that cycle (C44's invariant), which C82's invariant relates to the machine; induction over the resets; the commit program of C80 by its invariant, which carries over because it stays in RAM |
| C84 | `CrashSoc.v`: C81's lemmas about one instruction (at most one register write, shifts excepted) hold on any bus; the instruction in progress may never finish, so the run is compared with one that is the same up to this cycle and whose later requests are all answered by a RAM; C82's invariant, strengthened to all earlier cycles at once, gives the machine's states; induction over the resets, shared by both SoCs |
| C85 | `IoTransparent.v`: one instruction of the SoC is one `io_step` (C82's invariant for all earlier cycles); simulation between the machine with what happened and the machine that is never interrupted, equal on what the program can see, step by step using C75's lemma inside the RAM and directly for device accesses; an interrupt with its handler is a stuttering step by C22 |
| C86 | `PowerUp.v`, `PowerUpSoc.v`: a relation between the timed reference machines of two runs, equal on the registers defined so far, kept by every instruction, interrupt and exception; equal idle times give equal outputs, and equal outputs equal acknowledgements, read data and interrupts, by induction on time. For the SoCs the peripherals' and RAM's states are equal as long as the outputs were. |
| C87 | as C75, with a reference that has one more kind of instruction: an ordinary step by the simulation lemma of C75, a served exception by what the MRET at its end finds (C22), and the instruction word at the exception from the flat memory (C33). |
| C88 | the step lemmas of C85 (ordinary instruction, handled interrupt) from any machine state the core agrees with, and the served step of C87 with the RAM array in place of the flat memory. |
| C89 | Obs.v's timed machine gives the idle cycles after each transfer; a latency function gives the cycle of each acknowledge, so the cycle of the next fetch is computed; induction over instructions with C33's flat memory, or with the RAM array and the data the devices deliver. |
| C90 | the request of a store appears six cycles after the fetch, no other request writes; a register written by the requests on the bus then has the computed waveform, by induction over instructions; a closed program sees only RAM and pins, so the simulator of C89 needs nothing else. |
| C91 | by induction over instructions on top of C89: the devices see nothing until the request of a load or store, so the interrupt line in the sampling cycles, hence the instruction's course, is the simulator's; held requests then give the same device states until the answer, hence the same data. |
| C92 | lemma whole_stuck: up to the request as in C91 (lemmas before, upto); after it, no acknowledge, so the machine does not move and the bus stays; the converse by counting fetches. |
| C93 | `Lines.v` defines a frame list (`frames`: start cycle and byte of each store the simulator of C89 makes to the data register while the line is silent) and the line it stands for (`line_of`, `silent`). A record `transmitter` says what a serial port guarantees in terms of requests on the core's bus; `LinesSoc.v` derives it for AttoSoC from C41 and for the CSR variant from C59. Between two fetches only a store's request, 6 cycles after its fetch, can write (Waves.v `store_starts`), so the frame list is maintained instruction by instruction, and the line cycle by cycle. `LinesEx.v` runs a program whose every second byte is lost. |
| C94 | `Reads.v`: the request of a load appears in cycle t + 5 (Waves.v `load_starts`), so the cycle left open by C48 and C60 is that one. `rx_arrived` turns C37_receive (samples at half bits) and C37_unread_character_kept into: a frame on the line, of any bit length that `tolerates` admits, is in the data register from `arrives` on until it is asked for. C94_tolerance shows the admitted lengths to be all. C94_link composes this with C93_soc_store. `asked_by` classifies the bus cycles between two fetches, as `starts_access` does for writes. `ReadsEx.v` runs two boards on one wire in both directions, with a first load that comes too early. |
| C95 | `Wake.v`: `rx_becomes_full` (from C37_receive: not ready until `arrives`, ready then) gives the rising edge that C40 / C60 turn into the flag; the flag stays until a read of the register starts, and `int_taken` with C21_interrupt turns the line into the handler's fetch. The program form uses `asked_by` and `within` of C94. `WakeEx.v` runs a waiting program on both SoCs: the jump fetched before the character is complete is executed, the next one gives way to the handler. |
| C50-C55 | model of `FormalTop` registers next to the core; per-instruction windows, ROM path analysis (which microinstructions can run in a window), invariants over cycles of a window; refutation witnesses |

## Trusted base

### Logic
* Coq 8.16.1's kernel, including `vm_compute` (used to run the assembler on the microcode
  text, to enumerate the 256 microinstructions, and in examples and refutations).
* `Print Assumptions` of every theorem named in MANIFEST.json prints *Closed under the global
  context*: `theories/Assumptions.v` puts all of them in one tuple and prints its assumptions
  at each build.  No axioms, no `Admitted`, no kernel check switched off, no plugin, no functor
  or module type of our own.
* `coqchk`/vcheck lists seven library axioms: `Coq.ssr.ssrunder.Under_rel.{Under_rel,
  Under_rel_from_rel, Under_relE, under_rel_done, Over_rel, over_rel, over_rel_done}`.  They are
  fields of a sealed module in Coq's own `ssr` library (the implementation of the `under`
  tactic), loaded because `Coq.Setoids.Setoid` requires `Coq.ssr.ssrsetoid`.  No theorem here uses them.

### Reading of the code
The theorems are about the model.  What has to be believed for them to say something about the
hardware:
* **Transcription**: each definition cites the lines it was read from.  `MicrocodeText.v` is
  `src/sentinel/microcode.asm` byte for byte (checked with `cmp` when written); everything else
  was transcribed by hand.
* **Amaranth semantics** as used: one `sync` domain, all registers updated simultaneously from
  the values before the edge; the last assignment in program order wins; `m.If`/`Elif`/`Else`,
  `Switch` first match; unassigned combinational signals are 0 (or their `init`);
  synchronous reset has priority over all assignments to registers that are not `reset_less`
  and does not touch memories or memory read-port data registers; `EnableInserter` freezes every
  register and memory port of the wrapped design while the enable is low; values truncated to the width
  of the target; transparent memory read ports.
* The initial contents of registers without reset and of memories are arbitrary in `fresh`
  (core), so nothing depends on simulator defaults.
* **m5pre/m5meta** (external) are modelled for the constructs microcode.asm uses: `#define`
  macros, comments, `fields block_ram`, `origin`/`width`/`enum`/`bool`/`default`, labels, `.org`.
* **amaranth-soc** (external): `wishbone.Decoder` is modelled from its documented behaviour
  (address decoding, one-hot CYC, byte-lane slicing for `sparse` subordinates); the region
  boundaries are those its allocator produces for `AttoSoC`.  `csr.Bridge`, `csr.Decoder` and
  `WishboneCSRBridge` are modelled from their documented protocol (`CsrBus.v`).

### Modelled
| code | model |
|------|-------|
| `src/sentinel/microcode.asm` | `MicrocodeText.v` |
| `src/sentinel/ucoderom.py` (`UCodeROM`: assembling, field map check, layout, ROM) | `Asm.v`, `Layout.v` |
| `src/sentinel/ucodefields.py` | `Ucode.v` (enumerations) and `Asm.v` |
| `src/sentinel/alu.py`, `align.py`, `control.py`, `csr.py`, `datapath.py`, `decode.py`, `exception.py`, `insn.py` (fields used), `top.py` | `Cpu.v` |
| `src/sentinel/datapath.py:DataPathSrcMux` and the alternative routing | `SrcMux.v` |
| `src/sentinel/formal.py:FormalTop` | `Rvfi.v` |
| `examples/attosoc.py`: `WBMemory` | `SocMem.v` |
| `examples/attosoc.py`: `UART` | `Uart.v` |
| `examples/attosoc.py`: `WBLeds`, `WBTimer`, `CSRTimer` (register port), `WBSerial` | `Periph.v` |
| `examples/attosoc.py`: `AttoSoC` with `BusType.WB` | `Soc.v` |
| `examples/attosoc.py`: default firmware text in `demo`, assembled as by the `rom` setter (bronzebeard subset) | `Demo.v` |
| `examples/attosoc.py`: the `arty_a7` wrapper in `demo` (clock enable) | `Arty.v` |
| `examples/attosoc.py`: `AttoSoC.rom`, `WBMemory.init` setters, ELF segments in `demo` | `Rom.v` |
| `examples/attosoc.py`: `CSRLeds`, `CSRTimer`, `CSRSerial`, CSR wiring of `AttoSoC.elaborate`; amaranth-soc `csr.Bridge`, `csr.Decoder`, `WishboneCSRBridge` | `CsrBus.v` |
| `examples/attosoc.py`: `AttoSoC` with `BusType.CSR` (the default) | `CsrSoc.v` |
| `sentinel-rt/examples/attosoc.rs:28-33, 106-131, 133-199, 369-401` (serial driver) | `Firmware.dstep`, `FirmwareSys.wb_step/csr_step`: source level: each access is one bus transfer of the port model, everything else takes any number of cycles; `Queue<u8,64>` is a list of at most 63 bytes; `COUNT` is omitted; the panic loop and `read_num`'s outer critical section are not modelled |
| `sentinel-rt/examples/attosoc.rs` main thread: `do_demo`, `set_rule`, `read_num`, `write_line`, `write_char`'s encoding | `Automaton.v`; pauses and the characters found in RX are inputs |
| `sentinel-rt/examples/attosoc.rs:30, 141-144, 315-328` (COUNT and the pause), timer at its two addresses | `FirmwareEcho.COUNT`, `wbt_sys`, `csr_sys` |
| `formal.py:34-178, 296-604` as one record of ports per cycle | `RvfiLock.ports`, `rvfi_trace` |
| `tests/formal/wrapper.sv:83-155` | `Wrapper.wrap_step`, `assume_bus`, `assume_nest`, `assume_memio`, `assume_shift` (reversed part selects read as the fields they name) |
| `tests/sim/test_top.py:533-551` (`FlowModifiedTop`: `ResetInserter` and `EnableInserter` around `Top`) | `Enable.estep`, `erun` |
| `tests/formal/checks.cfg:37-76, 101-122` | `Checks.zero_masks`, `mstatus_const`, `mstatus_mask`, `zero_csrs`, `illegal_csrs`; the covers in `C71_covers` |
| `tests/conftest.py:33-54, 91-125` (`ucode_panic`, `mproc_inner`), `tests/upstream/test_upstream.py:38-94` (`wfhw_inner` and the assertion), `tests/riscof/sentinel/riscof_sentinel.py:23-43` (signature; lines as numbers) | `Harness.tick`, `mem_tick`, `host_tick`, `passes`, `signature` |
| `tests/sim/test_top.py:25-68,425-428`, `tests/sim/conftest.py`, `tests/sim/test_witness.py` | SeqTest.v: `seq_tick`, `matches`, `seen_regs`, `seen_csrs`, `witness` | assembly of the test programs done by hand |
tests/upstream/binaries (all 53), tests/upstream/test_upstream.py:21-35, 99-130
examples/attosoc.py:943-944, 1144-1149, 1158-1161
src/sentinel/datapath.py:396-427 with another RAM
| `tests/sim/test_top.py:431-531` (`test_loop`, `primes_io_tb`, `timeout_process`, `PRIMES`) | LoopTest.v: `ltick`, `loop_run`, `primes_text` | processes run in the order watchdog, memory, timeout, testbench at each tick |
| `examples/attosoc.py:84-107` under reset (`WBMemory`), `836-863, 917` | Crash.v: `wbmem_rstep`, `rsystem` | core and memory only |
| `src/sentinel/microcode.asm:292-337` (shift loops) cycle by cycle, under reset | CrashReg.v (over Cpu.v, Crash.v) | core and memory only |
| `examples/attosoc.py:833-919` under reset (both variants) | IoMem.v: `soc_rstep`, CsrIoMem.v: `csoc_rstep` | |

`SrcMux.v` deliberately repeats the circuit's step function with the other routing, as the code does.

### Validation of the transcription
The repository's own tests were run on the model, in the kernel: all 53 riscv-tests binaries of `tests/upstream`
(49 pass, and exactly the four marked xfail fail; C76, from every power-up state), the directed tests of
`tests/sim/test_top.py` (test_seq, test_witness: C74; test_loop: C79), and `examples/attosoc.py`'s demo firmware (C56, C62, C66).
The extracted cycle-accurate model run natively on the 53 binaries gives the same verdicts.  The ISA reference itself is
thereby checked against riscv-tests, which it was not written from.

### Not modelled
* `gen.py`, `dodo.py`, the build and synthesis flow, platform files, command-line handling, Verilog output.
* Anything below the register-transfer level: timing closure, metastability of the asynchronous
  `irq`, `rx` and GPIO inputs, power-up glitches, block-RAM initialisation by the FPGA tools.
* The test benches and the riscof plugin except as stated for C70, C72 and C74, riscv-formal itself and its `disasm.py` (wrapper and configuration are modelled, C69, C71), the crates `sentinel-rt/examples/attosoc.rs` depends on, except as stated for C63, C64 and C66.

### Hypotheses used in the theorems
* `ok s inp`: `s` is the core right after a clock edge with `rst` high (any previous state), no
  reset later, DAT_R is 32 bits, and the slave is *polite*: ACK only while CYC, and not in the
  first cycle of an instruction fetch.  `bus_ok` is stronger: ACK is never given in the first
  cycle of any request.  C07 shows what goes wrong otherwise; the SoC's slaves satisfy `bus_ok` (C43).
* `soc_start`, `mem_start`: the same for the whole SoC; memory contents arbitrary.
* Every such hypothesis has an `Example …_applies` (Examples.v, SocEx.v, Primes.v, RvfiEx.v, Periph.v, Uart.v).

## Findings (where the code does not do what its documentation or the ISA says)
1. C07: with a slave that acknowledges instruction fetches combinationally the core executes
   wrongly (`C07_refuted_combinational_slave`), although the bus documentation allows such slaves.
2. C17: the words 0x70, 0x71 and 0x72 (ECALL's bits with low bits other than 11, hence illegal)
   report cause 11 (`C17_refuted_not_quite_ecall`).
3. C24: MCAUSE's interrupt bit stays set when a synchronous exception follows an interrupt
   (`C24_refuted_sticky_bit`).
4. C31: `_create_field_layout` never increments `padding_id` and adds no padding before the first
   field; layouts with two gaps lose one (`C31_refuted_two_gaps`).  The shipped ROM is unaffected.
5. C39: the Wishbone timer clears an interrupt that a read in progress did not report (the CSR timer does not, C59).
6. C42: the Wishbone serial port marks a character as taken that the read did not return (the CSR port does not, C59).
7. C43: an access to an unmapped address never completes; the core waits forever.
8. C41: stores to a busy transmitter are dropped silently.
9. C52: RVFI reports a register write, with the previous report's value, for instructions that trap and write nothing (`C52_trap_reports_stale_destination`).
10. C55: RVFI's mstatus rdata/wdata are wrong for traps and wdata is wrong for MRET; mip's rdata is
    the IRQ line when MIP is written or the instruction ends, not what the instruction read (`C55_mip`, `C55_mip_refuted`).
11. doc/development/internals.md gives 8 cycles for MRET; it takes 7 (C26).  A comment in
    microcode.asm says ACK ends a request by itself; it is the microprogram that does.
12. C58: the ELF loader of `demo` ignores load addresses: a gap between the first two segments moves the second, further segments are dropped (`C58_refuted_elf_gap`).
13. C57: on the Arty the enables are 9, 8 and 9 clocks apart, not 8, 9, 8 as the comment computes: the
    SoC runs at 11.54 MHz and the serial port at 9231 baud, 3.8 % slow (`C57_bit_time`).
14. C69: riscv-formal never sees a run with two traps: wrapper.sv decrements its nesting counter only inside
    `if (rvfi_trap && bus__ack)`, that is when the MRET itself traps (`C69_refuted_sequential_traps`).
15. C69: riscv-formal never sees a transfer with exactly 8, 16, ... wait states, as the 3-bit counter wraps (`C69_refuted_eight_waits`).
16. C71: checks.cfg declares mstatus constant (0x1800) in all bits but bit 3, but bit 7 (MPIE) can be set; the mask
    should be 32'hFFFFFF77 (`C71_mstatus_const_refuted`).
17. C72: the test memory process writes `memory[addr]` but reads `memory[addr - start]`, so it is wrong for memories that do
    not start at 0; no test uses one (`C72_start_refuted`).
18. C77: `-p arty_a7 -x` raises AttributeError after the build: `asoc` has been rebound to the enable wrapper, which has no `rom` (`C77_demo_hex`).
19. C78: RegFile's documentation doubts that the core depends on the transparency of the register RAM (datapath.py:141-146); it does with
    the SoC's memory, which answers in the second cycle of a request (`C78_needs_transparency`).
20. C79: test_loop's testbench compares DAT_W without looking at WE, so a program that only loads from the port can pass it (`C79_applies`).
21. C81: microcode.asm:304-306 says of the partly shifted destination "microcode cannot be interrupted, so user will never see this intermediate result"; a reset can interrupt it, and the register RAM survives resets, so the next boot sees it (`C81_atomic_refuted`). Likewise CSR instructions with a destination write CSR and register in different cycles (`C81_csr_between`).

## Mutation testing
`seeded/LOG.jsonl` has one line per wrong program tried: hand-written realistic bugs (m..), and
random syntactic edits of every model file and of the microcode text (a.., v..): numbers off by
one, dropped negations, swapped operators, branches and registers, changed microinstruction
fields.  Each is built in a scratch copy; the log gives the lemma at which the build stops and the
property theorems that depend on it.  Edits that keep the build are listed with the reason: either
observationally equivalent, or the theorem was tightened (named in `tightened`).
