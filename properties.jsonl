{"id": "C01", "title": "Every bus transaction is the one the RISC-V program calls for", "statement": "After reset, every Wishbone request Sentinel puts on the bus (address, SEL, WE and, for writes, DAT_W) is exactly the request a reference RV32I_Zicsr machine-mode interpreter would make next, given the instructions and load data returned so far and the sampled IRQ line: the sequence of fetches, loads and stores is the architectural one, with no missing, extra, duplicated or reordered access.", "quantifier": "all programs and data returned on the bus, all ACK delays >= 1 cycle chosen per access, all IRQ waveforms, all cycles, any machine state before reset", "why_tests_cant": "Unit tests run a handful of programs with fixed latencies; the claim quantifies over all instruction words, operand values, wait states and unbounded histories.", "anchors": ["src/sentinel/top.py:Top.elaborate", "src/sentinel/microcode.asm", "src/sentinel/control.py", "src/sentinel/decode.py", "src/sentinel/datapath.py"]}
{"id": "C02", "title": "Architectural state matches the reference machine at every instruction boundary", "statement": "In the cycle after a fetched instruction is acknowledged, x0..x31, PC, MSTATUS.MIE/MPIE, MIE.MEIE, MTVEC, MSCRATCH, MEPC and MCAUSE held by the core equal those of the reference machine after executing all previous instructions.", "quantifier": "all programs, data, wait states, IRQ waveforms, and every instruction boundary of an unbounded run", "why_tests_cant": "Same: state after an arbitrary history cannot be enumerated by tests; hazards between overlapped fetch and write-back only show for particular latencies and register pairs.", "anchors": ["src/sentinel/datapath.py:RegFile", "src/sentinel/datapath.py:CSRFile", "src/sentinel/datapath.py:ProgramCounter", "src/sentinel/microcode.asm"]}
{"id": "C03", "title": "Reset works from any state", "statement": "If RST is asserted for at least one cycle in any state whatsoever (any register-file contents, any microinstruction left on the microcode ROM output), then after release the core makes its first instruction fetch at address 0 after a fixed number of cycles with x0 = 0, MSTATUS.MIE = 0, MIE.MEIE = 0, MCAUSE = 0, and no bus request is made in between.", "quantifier": "all prior states (including garbage on the microcode read port), all input waveforms during reset, all reset lengths >= 1", "why_tests_cant": "The author notes in control.py that not all reset behaviour has been characterised; there are 2^thousands of prior states.", "anchors": ["src/sentinel/control.py:Sequencer", "src/sentinel/top.py:mem_reset_guard", "src/sentinel/microcode.asm:reset"]}
{"id": "C04", "title": "x0 is zero forever", "statement": "From the first instruction fetch after reset, general-purpose register x0 (which is ordinary RAM in Sentinel, powered up as 0xdeadbeef) holds 0 in every cycle, whatever instructions execute.", "quantifier": "all programs, all cycles after reset", "why_tests_cant": "x0 is not hard-wired; any microroutine with a wrong write select would corrupt it for one specific instruction/rd combination.", "anchors": ["src/sentinel/datapath.py:RegFile.elaborate", "src/sentinel/top.py:allow_zero_wr", "src/sentinel/microcode.asm:reset"]}
{"id": "C05", "title": "A pending request is held stable until acknowledged", "statement": "While CYC/STB is asserted and ACK has not been received, the next cycle still asserts CYC/STB with the same ADR, SEL, WE and DAT_W.", "quantifier": "all cycles of all runs after reset without a new reset, any wait length", "why_tests_cant": "Needs to hold at each cycle for arbitrarily long waits in each microcode wait loop, including fetches that begin while the previous instruction is still writing back.", "anchors": ["src/sentinel/top.py:Top", "src/sentinel/align.py:AddressAlign", "src/sentinel/microcode.asm"]}
{"id": "C06", "title": "CYC and STB drop for at least one cycle after ACK", "statement": "When ACK is received for a request, CYC and STB are deasserted on the next cycle (documented in Top), for slaves that never acknowledge in the first cycle of a request.", "quantifier": "all programs, all wait states >= 1, all acknowledged cycles", "why_tests_cant": "Must hold after each access kind and microcode path.", "anchors": ["src/sentinel/top.py:Top docstring lines 44-45", "src/sentinel/microcode.asm"]}
{"id": "C07", "title": "ACK in the first cycle of a request (combinational slave)", "statement": "The documented bus contract (data is taken when ACK is asserted; CYC/STB drop on the cycle after ACK; execution stays architectural) also holds when the slave acknowledges in the very cycle CYC/STB rise.", "quantifier": "all programs and slaves whose ACK may be combinational", "why_tests_cant": "The repository's tests and riscv-formal wrapper only use slaves with at least one wait state.", "anchors": ["src/sentinel/top.py:Top docstring", "src/sentinel/microcode.asm:addi", "src/sentinel/microcode.asm:fast_epilog"]}
{"id": "C08", "title": "The core never hangs: a new request follows every ACK within a bounded number of cycles", "statement": "After each acknowledged transaction the core issues its next request within a fixed bound (the bound is attained only by the 31-step shift); it never stops for any instruction word, including illegal ones and WFI.", "quantifier": "all instruction words, operands, CSR state, IRQ waveforms", "why_tests_cant": "A hang on a single encoding or shift count would be missed by sampling; termination of the microcode loops is an inductive property.", "anchors": ["src/sentinel/microcode.asm", "src/sentinel/control.py:Sequencer"]}
{"id": "C09", "title": "Microcode never runs unassigned, panic or halt words", "statement": "After reset the microprogram counter only ever visits microinstructions that the assembly file defines and never `panic`, `halt` or a NOT_IMPLEMENTED entry.", "quantifier": "all programs, inputs and cycles", "why_tests_cant": "Depends on every decoder output and every jump; unreachable code cannot be shown unreachable by tests.", "anchors": ["src/sentinel/microcode.asm:panic", "src/sentinel/control.py:MappingROM", "src/sentinel/control.py:Sequencer"]}
{"id": "C10", "title": "Bus signals are well-formed", "statement": "In every cycle STB equals CYC; SEL is one of the RV32 patterns for an aligned byte, halfword or word (never empty during a request); WE is asserted only inside a request made by a store instruction; instruction fetches always use SEL=0xF.", "quantifier": "all cycles of all runs", "why_tests_cant": "Universal over cycles and programs.", "anchors": ["src/sentinel/align.py:AddressAlign", "src/sentinel/top.py"]}
{"id": "C11", "title": "Misaligned accesses never reach the bus", "statement": "A halfword or word load/store whose effective address is not naturally aligned makes no data bus request, changes no register, and traps with MCAUSE 4 (load) or 6 (store) and MEPC = its own PC.", "quantifier": "all base registers, offsets, data and memory-access instructions", "why_tests_cant": "All 2^32 addresses x encodings.", "anchors": ["src/sentinel/exception.py:ExceptionRouter", "src/sentinel/microcode.asm:lh"]}
{"id": "C12", "title": "Stores drive the right byte lanes", "statement": "SB/SH/SW with a legal effective address perform exactly one write, to the word containing the address, with SEL selecting exactly the addressed bytes and DAT_W carrying the low bits of rs2 in those lanes.", "quantifier": "all base, offset and rs2 values", "why_tests_cant": "Universal over data and addresses.", "anchors": ["src/sentinel/align.py:WriteDataAlign", "src/sentinel/align.py:AddressAlign", "src/sentinel/microcode.asm:sb"]}
{"id": "C13", "title": "Loads return the addressed bytes, correctly extended", "statement": "LB/LBU/LH/LHU/LW write to rd the addressed byte(s) of the word returned by the slave, sign- or zero-extended to 32 bits, and touch no other register; bytes outside SEL do not matter.", "quantifier": "all addresses, all returned words, all rd", "why_tests_cant": "Universal over data.", "anchors": ["src/sentinel/align.py:ReadDataAlign", "src/sentinel/alu.py:BSrcMux", "src/sentinel/microcode.asm:lb"]}
{"id": "C14", "title": "Integer results are right for all operands", "statement": "Each OP/OP-IMM instruction, LUI and AUIPC writes to rd the RV32I result for every pair of operands, including the iterative shifts for every shift amount (register shift amounts taken mod 32) and rd/rs overlaps.", "quantifier": "all operand values, immediates, shift amounts, register choices", "why_tests_cant": "2^64 operand pairs and loops of data-dependent length.", "anchors": ["src/sentinel/alu.py:ALU", "src/sentinel/microcode.asm:slli"]}
{"id": "C15", "title": "Branches and jumps", "statement": "Conditional branches go to PC+offset exactly when the RV32I comparison holds, else PC+4; JAL/JALR link PC+4 and clear bit 0 of the JALR target; a taken target with bit 1 set traps with MCAUSE 0, MEPC = PC of the branch, and rd unchanged.", "quantifier": "all operands, offsets and PCs including wrap-around at 2^32", "why_tests_cant": "Universal over operands.", "anchors": ["src/sentinel/microcode.asm:jalr", "src/sentinel/microcode.asm:branch_epilog", "src/sentinel/exception.py"]}
{"id": "C16", "title": "Illegal instructions are classified exactly", "statement": "A 32-bit word traps as illegal if and only if it is not an RV32I_Zicsr + MRET/WFI encoding accepted by the base specification (with any FENCE accepted and other MISC-MEM rejected); no illegal word has any effect other than the trap and no legal one traps.", "quantifier": "all 2^32 instruction words", "why_tests_cant": "2^32 words with context-dependent two-cycle decoding of CSR instructions.", "anchors": ["src/sentinel/decode.py:ExceptionControl", "src/sentinel/control.py:MappingROM"]}
{"id": "C17", "title": "Illegal words report cause 2", "statement": "Every illegal instruction word traps with MCAUSE = 2, and only ECALL (0x00000073) reports environment-call cause 11.", "quantifier": "all 2^32 instruction words", "why_tests_cant": "The failing words are 3 in 2^32.", "anchors": ["src/sentinel/decode.py:373-374"]}
{"id": "C18", "title": "CSR access control", "statement": "A CSR instruction traps exactly when the CSR is not one of the implemented/read-only-zero machine CSRs or it writes a read-only one (CSRRW[I] always write; CSRRS/C[I] write iff rs1/uimm is nonzero).", "quantifier": "all 4096 CSR addresses x 6 operations x all rs1/rd", "why_tests_cant": "Look-up uses a folded 10-bit address plus separate quadrant checks; needs exhaustive argument over addresses.", "anchors": ["src/sentinel/decode.py:CSRAttributes", "src/sentinel/decode.py:ExceptionControl", "src/sentinel/csr.py"]}
{"id": "C19", "title": "CSR read-modify-write is atomic and follows the WARL rules", "statement": "CSRRW/S/C[I] on an implemented CSR returns the old value to rd and stores the written/set/cleared value, where MTVEC and MEPC always keep their low two bits zero, MSTATUS keeps only MIE and MPIE writable with MPP=3, MIE keeps only MEIE, MIP is not writable.", "quantifier": "all CSRs, values, rd and rs1 (including rd = rs1)", "why_tests_cant": "Shadow copies in RAM vs flip-flops; universal over values.", "anchors": ["src/sentinel/datapath.py:CSRFile", "src/sentinel/microcode.asm:csrrw_1"]}
{"id": "C20", "title": "Read-only-zero CSRs", "statement": "Reading any CSR listed as read-only zero (misa, mvendorid, marchid, mimpid, mhartid, mconfigptr, mstatush, mtval, mcycle[h], minstret[h], mhpmcounter*, mhpmevent*, mcountinhibit) yields 0 in rd, and writes to the writable ones are ignored.", "quantifier": "all such addresses, operations, operand values", "why_tests_cant": "Over a hundred addresses x operations x operand values.", "anchors": ["src/sentinel/decode.py:CSRAttributes._rom_init", "src/sentinel/microcode.asm:csrro0"]}
{"id": "C21", "title": "Trap entry", "statement": "Every trap sets MEPC to the PC of the trapping/interrupted instruction, MPIE to the old MIE, MIE to 0, PC to MTVEC's base, MCAUSE to the cause, changes no general register, and the next request is the fetch at MTVEC.", "quantifier": "all traps in all reachable states", "why_tests_cant": "Universal over states.", "anchors": ["src/sentinel/microcode.asm:save_pc", "src/sentinel/datapath.py:775-779"]}
{"id": "C22", "title": "MRET", "statement": "MRET sets PC to MEPC, MIE to MPIE, MPIE to 1 and nothing else.", "quantifier": "all reachable states", "why_tests_cant": "Universal over states.", "anchors": ["src/sentinel/microcode.asm:mret", "src/sentinel/datapath.py:780-784"]}
{"id": "C23", "title": "Interrupts are precise and taken iff enabled and asserted", "statement": "An interrupt is taken between two instructions exactly when MSTATUS.MIE, MIE.MEIE and the IRQ line are all 1 at a decode query cycle; the interrupted instruction has no effect at all and is the one MEPC points at, and MCAUSE is 0x8000000B.", "quantifier": "all programs and IRQ waveforms, all instruction boundaries", "why_tests_cant": "Arrival times are unbounded and the window is one or two cycles per instruction.", "anchors": ["src/sentinel/exception.py:237-243", "src/sentinel/microcode.asm:check_int", "src/sentinel/microcode.asm:csr_trampoline"]}
{"id": "C24", "title": "MCAUSE distinguishes exceptions from interrupts", "statement": "After a synchronous exception MCAUSE has its interrupt bit (bit 31) clear, whatever happened before.", "quantifier": "all histories of interrupts and exceptions", "why_tests_cant": "Needs an exception after an interrupt without reset in between; history-dependent.", "anchors": ["src/sentinel/exception.py:ExceptionRouter.elaborate"]}
{"id": "C25", "title": "MIP reflects the IRQ line", "statement": "Reading MIP returns MEIP (bit 11) equal to the IRQ line in the cycle the CSR is read and all other bits 0; writes to MIP never change it.", "quantifier": "all IRQ waveforms and writes", "why_tests_cant": "Timing- and history-dependent.", "anchors": ["src/sentinel/datapath.py:CSRFile", "src/sentinel/top.py:331"]}
{"id": "C26", "title": "Instruction timing", "statement": "The number of cycles from the ACK of an instruction fetch to the next request, and the earliest completion, is the documented function of the instruction class (and of the shift amount for shifts). A trap is entered a fixed number of cycles after it is noticed: the request for the handler follows the fetch by 6 cycles for interrupts, illegal words, ECALL and EBREAK, 7 for illegal or interrupted CSR accesses, 9 for misaligned loads, stores and jumps, 10 for misaligned taken branches.", "quantifier": "all instructions and operands; any wait states", "why_tests_cant": "Data-dependent loops; tests measure only some shift counts.", "anchors": ["doc/internals/reference", "src/sentinel/microcode.asm"]}
{"id": "C27", "title": "Frame: nothing else changes", "statement": "Executing an instruction changes at most rd, PC and, for CSR instructions, the addressed CSR; every other general register and CSR is unchanged, and only stores write to the bus.", "quantifier": "all instructions and states", "why_tests_cant": "Universal over states; a stray write hits unrelated registers.", "anchors": ["src/sentinel/microcode.asm", "src/sentinel/datapath.py"]}
{"id": "C28", "title": "Bus inputs matter only in acknowledged cycles", "statement": "Outside cycles where CYC and ACK are both asserted, the DAT_R and (while CYC is low) ACK inputs have no effect: two runs with the same acknowledged transactions at the same cycles and the same IRQ produce the same outputs in every cycle. Of an acknowledged read only the byte lanes selected by SEL matter, of an acknowledged write nothing on DAT_R; IRQ matters only in the cycle after an acknowledged fetch if interrupts are enabled, in the next one for CSR instructions, and in the third when MIP is read.", "quantifier": "all pairs of input waveforms", "why_tests_cant": "Hyperproperty over pairs of runs; eager register reads use unacknowledged DAT_R.", "anchors": ["src/sentinel/top.py:377-378", "src/sentinel/decode.py:src_a_unreg", "src/sentinel/control.py"]}
{"id": "C29", "title": "Masked interrupts are invisible", "statement": "While MSTATUS.MIE or MIE.MEIE is 0 the IRQ line influences nothing but values read from MIP.", "quantifier": "all pairs of IRQ waveforms", "why_tests_cant": "Hyperproperty over pairs of runs.", "anchors": ["src/sentinel/exception.py", "src/sentinel/datapath.py:CSRFile"]}
{"id": "C30", "title": "Microcode ROM is what the assembly source says", "statement": "Assembling the shipped microcode.asm yields a 256x48-bit ROM whose words, split at the derived field boundaries, give back for every source line exactly the field values written there with defaults elsewhere; packing and unpacking fields are inverse.", "quantifier": "all ROM addresses; all field values", "why_tests_cant": "Each of 256x26 fields; the ROM image is generated, not checked in.", "anchors": ["src/sentinel/ucoderom.py:UCodeROM.assemble", "src/sentinel/microcode.asm", "src/sentinel/ucodefields.py"]}
{"id": "C31", "title": "Microcode field layout honours field origins", "statement": "UCodeROM places every microcode field at the bit offset its assembly file declares, for any file with gaps between fields.", "quantifier": "all field tables (names, origins, widths), any number of gaps", "why_tests_cant": "Only the shipped gap-free file is ever tested.", "anchors": ["src/sentinel/ucoderom.py:_create_field_layout"]}
{"id": "C32", "title": "DataPathSrcMux is equivalent to the inline routing in Top", "statement": "The alternative component DataPathSrcMux computes the same register read/write addresses, zero-write enable and CSR address as the inline implementation in Top.", "quantifier": "all control and decoder inputs", "why_tests_cant": "Component is unused and untested.", "anchors": ["src/sentinel/datapath.py:DataPathSrcMux", "src/sentinel/top.py:372-399"]}
{"id": "C33", "title": "A Sentinel system with memory runs programs like a flat-memory RV32I machine", "statement": "Sentinel connected to a Wishbone memory (any slave with >=1 wait state that stores selected bytes) executes exactly as an ISA machine with a byte-addressable memory: every load sees the most recent store to each byte.", "quantifier": "all programs, initial memories, latencies, IRQ waveforms, unbounded runs", "why_tests_cant": "Composition over unbounded runs.", "anchors": ["src/sentinel/top.py", "examples/attosoc.py:WBMemory"]}
{"id": "C34", "title": "Reserved CSR bits invariants", "statement": "In every cycle after reset PC, MTVEC and MEPC are multiples of 4 and MSTATUS.MPP reads 3.", "quantifier": "all programs and cycles", "why_tests_cant": "Universal over histories.", "anchors": ["src/sentinel/datapath.py:CSRFile", "src/sentinel/datapath.py:ProgramCounter"]}
{"id": "C35", "title": "No nested interrupt before software re-enables", "statement": "After a trap is taken, no interrupt is taken until an instruction sets MSTATUS.MIE (CSR write or MRET with MPIE=1), however long IRQ stays asserted.", "quantifier": "all programs, IRQ waveforms", "why_tests_cant": "History-dependent over unbounded runs.", "anchors": ["src/sentinel/exception.py", "src/sentinel/datapath.py:775-784"]}
{"id": "C36", "title": "Serial transmitter framing", "statement": "Writing a character to the UART transmitter while it is ready puts on the line one start bit (0), the data bits least significant first and one stop bit (1), each lasting exactly `divisor` cycles; it is busy for exactly that time, the line idles high, and only a write while ready starts a frame.", "quantifier": "all divisors >= 1, data widths, characters, write schedules, unbounded time", "why_tests_cant": "Counter arithmetic over every divisor and every schedule of writes.", "anchors": ["examples/attosoc.py:UART"]}
{"id": "C37", "title": "Serial receiver and overflow", "statement": "Given a line that carries a well-formed frame (each bit stable around its sampling point), the receiver presents exactly the transmitted character; an unread character is never overwritten by a later frame.", "quantifier": "all divisors, characters, line waveforms with tolerance, read schedules", "why_tests_cant": "Sampling at unbounded phase/rate offsets.", "anchors": ["examples/attosoc.py:UART"]}
{"id": "C38", "title": "Serial loopback", "statement": "A transmitter connected to a receiver of equal or slightly different divisor delivers every character unchanged; with a consumer that takes characters promptly, the received sequence is a prefix of the sent sequence, at most two behind, with no overflow.", "quantifier": "all divisors, rate mismatches within tolerance, all character streams of any length", "why_tests_cant": "Unbounded streams and all rate combinations.", "anchors": ["examples/attosoc.py:UART"]}
{"id": "C39", "title": "Timer interrupt", "statement": "The timer raises its interrupt every 16384 cycles and holds it until it is read (or the next tick); a pending interrupt is cleared only by a read that reports it.", "quantifier": "all bus waveforms and cycles, WB and CSR variants", "why_tests_cant": "The race between tick and read needs the exact cycle.", "anchors": ["examples/attosoc.py:WBTimer", "examples/attosoc.py:CSRTimer"]}
{"id": "C40", "title": "Serial interrupts are never missed", "statement": "Each of the two serial interrupt bits is set exactly when its event (character received / transmitter empty) has happened since the last read of the IRQ register started; an event coinciding with the read is kept; the read returns both bits.", "quantifier": "all bus and line histories", "why_tests_cant": "Sticky-bit races over arbitrary interleavings.", "anchors": ["examples/attosoc.py:WBSerial"]}
{"id": "C41", "title": "Stores to the serial port transmit exactly once", "statement": "A two-cycle bus write to the data register sends its low byte exactly once if the transmitter is ready, and is dropped without disturbing the frame in progress otherwise; nothing else starts a frame.", "quantifier": "all bus histories, divisors, characters", "why_tests_cant": "Interleavings of writes with the transmitter state.", "anchors": ["examples/attosoc.py:WBSerial"]}
{"id": "C42", "title": "Reads of the serial port take exactly the character they return", "statement": "A read of the data register returns the received character and takes it; a character is taken only by a read that returned it.", "quantifier": "all bus and line histories", "why_tests_cant": "The race between completion and the two-cycle read.", "anchors": ["examples/attosoc.py:WBSerial"]}
{"id": "C43", "title": "SoC bus", "statement": "In the example SoC every access to a mapped address completes in exactly two cycles with the addressed peripheral alone responding; the core therefore behaves architecturally in it; an access to an unmapped address is never acknowledged.", "quantifier": "all programs, pin waveforms, memory contents, unbounded runs", "why_tests_cant": "Closed-system property over all programs.", "anchors": ["examples/attosoc.py:AttoSoC", "examples/attosoc.py:WBMemory"]}
{"id": "C44", "title": "SoC memory coherence", "statement": "A read from the RAM returns in every byte the last value stored there by an acknowledged write (or the initial contents), whatever the interleaved peripheral traffic.", "quantifier": "all Wishbone masters that hold requests; all programs in the SoC; all RAM depths 2^k", "why_tests_cant": "Unbounded histories of writes.", "anchors": ["examples/attosoc.py:WBMemory"]}
{"id": "C45", "title": "LED and GPIO registers", "statement": "The LED, GPIO output and GPIO output-enable registers hold the last byte written to their address and change for no other reason; reading the GPIO register returns the pins sampled in the first cycle of the read.", "quantifier": "all bus histories and pin waveforms", "why_tests_cant": "Frame property over all histories.", "anchors": ["examples/attosoc.py:WBLeds"]}
{"id": "C46", "title": "A store instruction to the LED address sets the LEDs, nothing else does", "statement": "After an SB/SH/SW to 0x0200_0000 (or a mirror) completes, the LEDs show the low byte of the source register; across any other instruction, trap or interrupt they are unchanged.", "quantifier": "all programs, instructions, states, pin waveforms", "why_tests_cant": "End-to-end over all programs.", "anchors": ["examples/attosoc.py:AttoSoC", "examples/attosoc.py:WBLeds", "src/sentinel/top.py"]}
{"id": "C47", "title": "A store instruction to the serial port transmits a frame, nothing else does", "statement": "A store to the serial data register sends the low byte of the source register on the TX pin if the transmitter is idle; the TX pin leaves idle only for such a store.", "quantifier": "all programs, divisors, states", "why_tests_cant": "End-to-end over all programs.", "anchors": ["examples/attosoc.py:AttoSoC", "examples/attosoc.py:WBSerial", "examples/attosoc.py:UART"]}
{"id": "C48", "title": "Load instructions from peripherals", "statement": "LB/LBU/LH/LHU/LW from the GPIO, timer, serial data and serial IRQ registers write to rd (LB sign-extended) the GPIO pins, the timer's pending bit, the received character (taking it) and the two serial interrupt bits, sampled in the cycle the request appears.", "quantifier": "all programs, states, waveforms", "why_tests_cant": "End-to-end over all programs.", "anchors": ["examples/attosoc.py:AttoSoC"]}
{"id": "C49", "title": "SoC interrupt line", "statement": "The core's interrupt line is up exactly while the timer or the serial port has an interrupt pending; after reset the serial port's is up from the second cycle until its IRQ register is first read.", "quantifier": "all programs and pin waveforms", "why_tests_cant": "History property over all programs.", "anchors": ["examples/attosoc.py:AttoSoC", "examples/attosoc.py:WBSerial"]}
{"id": "C50", "title": "RVFI reports each instruction exactly once, in order", "statement": "The formal-interface harness raises valid in exactly those cycles in which an instruction ends (its successor's fetch is acknowledged), once per executed or trapped instruction, and numbers the reports 0, 1, 2, ... modulo 2^64.", "quantifier": "all programs, bus waveforms with arbitrary wait states, interrupt waveforms, and cycles", "why_tests_cant": "The counter ranges over unbounded histories; riscv-formal only checks bounded traces.", "anchors": ["src/sentinel/formal.py:FormalTop", "src/sentinel/top.py:Top"]}
{"id": "C51", "title": "RVFI instruction, PC and source operands", "statement": "A report's insn is the fetched word, pc_rdata and pc_wdata are the program counter before and after the instruction, rs1_addr/rs2_addr are the register fields of the word and rs1_rdata/rs2_rdata the contents of those registers when the instruction starts.", "quantifier": "all programs, register contents, wait states and interrupts", "why_tests_cant": "Depends on unboundedly many combinations of forwarding, wait states and instruction history.", "anchors": ["src/sentinel/formal.py:FormalTop", "src/sentinel/top.py:Top"]}
{"id": "C52", "title": "RVFI destination", "statement": "A report's rd_addr/rd_wdata are exactly the general-purpose register effect of the instruction: the destination named (0 if none), 0 data for x0, and the registers after are those before with the reported value in the reported register.", "quantifier": "all programs, register contents, wait states and interrupts", "why_tests_cant": "The harness captures the last register write of multi-cycle microcode; must hold for every path.", "anchors": ["src/sentinel/formal.py:FormalTop", "src/sentinel/top.py:Top"]}
{"id": "C53", "title": "RVFI trap and intr", "statement": "A report's trap is set iff the instruction trapped (synchronously or by an interrupt taken in its place); intr is set iff the previous instruction trapped, and is clear on the first report.", "quantifier": "all programs, wait states and interrupt waveforms", "why_tests_cant": "Depends on history and on asynchronous interrupts.", "anchors": ["src/sentinel/formal.py:FormalTop", "src/sentinel/top.py:Top"]}
{"id": "C54", "title": "RVFI memory access", "statement": "A report's mem_* fields describe the one data access of the instruction (word address, byte mask, data), with both masks 0 for instructions that make no access or trap.", "quantifier": "all programs, addresses, data and wait states", "why_tests_cant": "All addresses/data/latencies.", "anchors": ["src/sentinel/formal.py:FormalTop", "src/sentinel/top.py:Top"]}
{"id": "C55", "title": "RVFI CSR reports", "statement": "A report's CSR rdata is the CSR's value when the instruction starts and its wdata, after WARL legalisation, the value when the next one starts; read-only-zero CSRs report 0 and what a CSR instruction would have stored.", "quantifier": "all programs, CSR contents, wait states and interrupts", "why_tests_cant": "Depends on history and on asynchronous interrupts.", "anchors": ["src/sentinel/formal.py:FormalTop", "src/sentinel/top.py:Top"]}
{"id": "C56", "title": "Demo firmware shows the primes", "statement": "With the default firmware of the example SoC in RAM, the LEDs start at 0 and then show 3, 5, 7, 11, ..., 251, 2, 3, ... for ever, in that order, never skipping one and never showing anything else; more generally, any program that runs with interrupts off, reads no data and stores only to the LED register is executed exactly as written and the LEDs show exactly the values it stores.", "quantifier": "all cycles of an unbounded run, all initial register/RAM contents beyond the program, all pin inputs, serial divisors and RAM sizes that hold the program", "why_tests_cant": "tests/sim/test_top.py runs a bounded number of cycles with a shortened delay; the claim is about the infinite run (hundreds of millions of cycles per period).", "anchors": ["examples/attosoc.py:demo", "examples/attosoc.py:AttoSoC.rom", "tests/sim/test_top.py:test_loop"]}
{"id": "C57", "title": "Arty A7 build: clock enable", "statement": "On the Arty A7 the SoC, clock-enabled 3 cycles in every 26 of the 100 MHz clock, behaves exactly as the SoC clocked directly would with the pin values of the enabled cycles: after t clocks it is in the state reached after the number of enabled clocks so far; in particular the demo shows the same sequence of primes. Enables come 8 or 9 clocks apart and a serial bit of 1250 SoC cycles lasts 10833 or 10834 clocks.", "quantifier": "all clocks of an unbounded run, all initial SoC states, all pin histories, RAM sizes and serial divisors", "why_tests_cant": "the divider wraps every 26 clocks and the claim is a simulation relation over the infinite run; the board build is not tested at all.", "anchors": ["examples/attosoc.py:demo (case \"arty_a7\")"]}
{"id": "C58", "title": "Program loading", "statement": "Assigning an image to the SoC's rom puts byte a of the image at byte address a of the RAM (little-endian words, last word zero-filled), leaves the words beyond it as a previous assignment left them, and is refused exactly when the image does not fit; the first two segments of an ELF file given to the demo builder end up at their load addresses provided the first goes to address 0 and the second follows without a gap (not otherwise); the core's fetches and loads then return the image's bytes wherever the program has not stored since, and the SoC built with the demo text shows the primes.", "quantifier": "all images, word lists and ELF segments of any length, all memory depths, all previous contents, all runs of the SoC", "why_tests_cant": "image lengths (including those not a multiple of four), memory sizes and executions are unbounded", "anchors": ["examples/attosoc.py:AttoSoC.rom", "examples/attosoc.py:WBMemory.init", "examples/attosoc.py:demo (ELF segments)"]}
{"id": "C59", "title": "The CSR-bus peripherals", "statement": "Behind the CSR bridge every Wishbone request the master holds is acknowledged in its sixth cycle and only then; a read returns the value the addressed register had in the first cycle of the request (0 where there is no readable register or lane 0 is not selected). LED, GPIO-output and output-enable registers take the written byte two cycles after the request starts and never change otherwise. The timer interrupt rises every 16384 cycles and falls when its register is read or at the next tick; the serial interrupt bits are set by their events, none being pending after reset, and are cleared only by a read that returns them; a byte written to an idle transmitter goes out as one frame; a received character is taken only by a read of the data register that returns it.", "quantifier": "all bus histories with held requests (addresses, byte selects, spacing), all GPIO inputs, all serial line waveforms, all divisors", "why_tests_cant": "histories are unbounded; the phase of reads against timer ticks, received characters and transmit completion ranges over all interleavings", "anchors": ["examples/attosoc.py:CSRLeds", "examples/attosoc.py:CSRTimer", "examples/attosoc.py:CSRSerial", "examples/attosoc.py:AttoSoC.elaborate"]}
{"id": "C60", "title": "The example SoC with CSR peripherals (the default)", "statement": "In the SoC with CSR peripherals the core sees a well-behaved bus; a request to RAM (below 0x0200_0000) is answered in its second cycle, one to the peripheral window (0x0200_0000 to 0x03ff_ffff) in its sixth, one elsewhere never. RAM reads return the bytes last stored. A store to the LED, GPIO-output or output-enable register puts the low byte of the source register on the pins before the next instruction is fetched and nothing else changes them. A load from a peripheral register returns that register's value at the start of the access, and clears what it returned. A store to the serial data register transmits one frame if the transmitter is idle and is dropped if not; nothing else starts the transmitter. The core's interrupt line is high exactly when the timer flag (set every 16384 cycles, cleared by a read of its register) or one of the serial port's flags (character available, transmitter free; cleared by a read of the serial interrupt register) is.", "quantifier": "all programs and initial RAM contents, RAM sizes, divisors, pin waveforms, and all cycles", "why_tests_cant": "programs, waveforms and run lengths are unbounded", "anchors": ["examples/attosoc.py:AttoSoC.elaborate", "examples/attosoc.py:BusType.CSR", "sentinel-rt/examples/attosoc.rs"]}
{"id": "C61", "title": "Run-time detection of the peripheral bus", "statement": "A program that reads MIP as one of its first actions with interrupts disabled gets MEIP set on the Wishbone SoC (as long as it has not read the serial IRQ register) and clear on the CSR SoC (as long as it has not written to the serial port, fewer than 16384 cycles have passed since reset and the receive line has stayed idle), so the runtime's choice of base addresses is right.", "quantifier": "all programs, RAM contents, divisors, pin waveforms and the cycle of the read", "why_tests_cant": "it must hold whatever the program did before the read and whatever the pins do", "anchors": ["sentinel-rt/examples/attosoc.rs:get_bases", "examples/attosoc.py:WBSerial", "examples/attosoc.py:CSRSerial"]}
{"id": "C62", "title": "The demo firmware shows the primes on the CSR SoC", "statement": "On the SoC with CSR peripherals too, the built-in demo firmware makes the LEDs show, starting from 0, 3, 5, 7, 11, ... 251, 2, 3, ... for ever and nothing else; and more generally any program that keeps interrupts disabled, loads no data and stores only to the LED register makes the LEDs show exactly the values it stores, in order.", "quantifier": "all pin waveforms, divisors, RAM sizes, uninitialised register values, all times", "why_tests_cant": "the run is infinite and must be right for every register file content, pin waveform and divisor", "anchors": ["examples/attosoc.py:AttoSoC", "examples/attosoc.py:main"]}
{"id": "C63", "title": "Everything the example firmware prints is sent, once and in order", "statement": "With the Rust example firmware's interrupt-driven serial driver (write_char and the external-interrupt handler) on either SoC's serial port, the bytes the port transmits are at every moment a prefix of the bytes passed to write_char, in order, none lost and none repeated; the firmware never writes a byte to a busy transmitter; outside critical sections, the bytes sent plus those in the queue are exactly those write_char has returned from; a non-empty queue always has a pending or coming transmit interrupt, so it cannot be stranded; and if interrupts are not shut out for ever and the program goes on printing, every byte is eventually sent. A terminal at the same rate that takes characters within half a bit time sees a prefix of what is printed, at most two characters behind.", "quantifier": "all byte streams, all interleavings of main thread, interrupt handler and port (any number of cycles between any two steps), all divisors, all serial input waveforms, other interrupts and their timing", "why_tests_cant": "a lost wake-up needs the transmitter to finish at one particular cycle between the firmware's check and its write; the claim ranges over every such interleaving and over infinite histories", "anchors": ["sentinel-rt/examples/attosoc.rs:MachineExternal", "sentinel-rt/examples/attosoc.rs:write_char", "sentinel-rt/examples/attosoc.rs:main", "examples/attosoc.py:WBSerial", "examples/attosoc.py:CSRSerial"]}
{"id": "C64", "title": "Every character that reaches the serial port is stored once, in order", "statement": "With the example firmware's interrupt handler on either SoC's serial port, the characters the receiver makes available are handed to the program (stored in RX) exactly once each and in order of arrival, whatever the handler's latency and whatever else it is doing; outside the handler only a character still in the receiver is missing, and its interrupt is pending or about to be; and if interrupts are not shut out for ever each is eventually stored. If moreover every character is read within half a bit time of its arrival, then what has been stored is a prefix of what the terminal at the other end sent, at most three characters behind.", "quantifier": "all serial input waveforms, all interleavings, all divisors", "why_tests_cant": "duplicated or skipped characters need the interrupt flag, the read and the next arrival to coincide in one of many ways; infinite histories", "anchors": ["sentinel-rt/examples/attosoc.rs:MachineExternal", "examples/attosoc.py:WBSerial", "examples/attosoc.py:CSRSerial", "examples/attosoc.py:UART"]}
{"id": "C65", "title": "Bounded instruction time and interrupt latency", "statement": "If every bus request is acknowledged at most W cycles after it appears, then after reset the first instruction fetch completes in cycle 5 to 5+W, and from any cycle on, in any program, with any interrupt pattern, the next instruction fetch completes within max(68+W, 8+2W) cycles. If at the cycle after that fetch the interrupt line is high with interrupts enabled, the bus stays idle for five cycles and the first instruction of the handler (at the address in MTVEC) is requested exactly six cycles after the fetch. In the Wishbone SoC W is 1 and in the CSR SoC W is 5 for software that only touches mapped addresses, so the next instruction boundary is never more than 69 or 73 cycles away.", "quantifier": "all programs, bus latencies up to any bound W, interrupt patterns and cycles", "why_tests_cant": "a worst case over every instruction, operand value, bus timing and interrupt arrival; infinite executions", "anchors": ["src/sentinel/microcode.asm", "src/sentinel/control.py:Control", "src/sentinel/top.py:Top", "examples/attosoc.py:AttoSoC"]}
{"id": "C66", "title": "The example firmware prints the automaton it promises", "statement": "For every line width, start position and rule, every history of the button and every sequence of characters received, the example firmware prints: the start configuration; then, line by line, the successive generations of the elementary cellular automaton with that rule and dead cells beyond both ends, although it updates a single buffer in place; drawn in the style given by how often the button has been held throughout a pause, modulo four (two shaded styles by neighbourhood, two showing the next generation in black and white); until the first pause in which Ctrl-C is the last character to arrive; then the prompt, an echo of the next three characters it finds, and a new run with the number they begin with (110 if none), which is also what the LEDs show. A terminal reading the bytes as UTF-8 sees exactly these characters.", "quantifier": "all widths, rules, numbers of generations, button and character histories", "why_tests_cant": "the in-place update must agree with the synchronous one for all 256 rules and every reachable configuration; unbounded histories", "anchors": ["sentinel-rt/examples/attosoc.rs:do_demo", "sentinel-rt/examples/attosoc.rs:set_rule", "sentinel-rt/examples/attosoc.rs:read_num", "sentinel-rt/examples/attosoc.rs:write_char"]}
{"id": "C67", "title": "Answering the rule prompt cannot hang the example firmware", "statement": "The example firmware echoes typed characters inside a critical section, where the transmit interrupt cannot empty the 63-byte queue, so a full queue there would hang it for ever. It never is full there: after the pause that precedes every prompt (at least 144 timer interrupts counted, nothing printed meanwhile) every byte of the prompt, of the echo of whatever is typed and of the final newline is accepted by write_char at its first attempt, even if no further interrupt is taken.", "quantifier": "both SoCs, all divisors up to 1638 (the shipped one is 1250), all byte streams and typed characters, all interleavings of main thread, handler, timer and port with arbitrary delays between any two steps", "why_tests_cant": "depends on how main thread, handler, timer and transmitter interleave over millions of cycles; the bad case needs a full queue at one moment", "anchors": ["sentinel-rt/examples/attosoc.rs:read_num", "sentinel-rt/examples/attosoc.rs:write_char", "sentinel-rt/examples/attosoc.rs:MachineExternal", "sentinel-rt/examples/attosoc.rs:do_demo", "examples/attosoc.py:WBTimer", "examples/attosoc.py:CSRTimer"]}
{"id": "C68", "title": "Every RVFI trace passes a lock-step checker", "statement": "Feed the reports of the formal harness (all cycles with valid high, from reset, in order) to a checker that knows only the RISC-V specification and what earlier reports imply: it recomputes every instruction's effect (destination, result, next pc, memory address, lane masks, store data, CSR written) from the reported operands, requires every reported operand (pc, source registers, CSRs, order, intr) to agree with what earlier reports left there, and requires a report flagged as trap to be of an instruction that must trap, with that cause, or of a possible interrupt. No trace is ever refused. For given operands the checker accepts only one result of an instruction that does not trap (except what a read of MIP returns).", "quantifier": "all reset states, programs, memories, bus timings, interrupt schedules and trace lengths", "why_tests_cant": "riscv-formal checks the same interface only up to a small depth; lock-step agreement over whole histories is unbounded", "anchors": ["src/sentinel/formal.py:FormalTop", "src/sentinel/top.py:Top", "src/sentinel/microcode.asm", "tests/formal/checks.cfg"]}
{"id": "C69", "title": "What riscv-formal's environment lets the core do", "statement": "The project's riscv-formal wrapper drives the core with a random bus under some assumptions. Every bus it allows is one the core's guarantees cover, and it allows every bus whose answers take one to seven wait states (so both example SoCs while software touches mapped addresses only). Its liveness checks cannot fail: after each report the next one follows within 71 cycles, and within 14 when shift amounts are limited as in the default group. The wrapper is meant to exclude only peripherals that answer in the cycle of the request and nested traps.", "quantifier": "all reset states, bus answers, interrupt schedules and run lengths", "why_tests_cant": "whether an assumption excludes runs that can happen in a real system is a statement about all runs; a bounded model checker never reports what its assumptions cut away", "anchors": ["tests/formal/wrapper.sv:rvfi_wrapper", "tests/formal/checks.cfg", "src/sentinel/formal.py:FormalTop"]}
{"id": "C70", "title": "The core behind a clock enable and a reset", "statement": "The store/reset flow tests wrap the core in a clock enable and a reset input. Between resets the wrapped core does exactly what the bare core does when it is given only the enabled cycles' inputs. A reset pulse takes effect whether or not the core is enabled: it makes no bus request until five enabled cycles later, and then fetches from address 0; a request being made is withdrawn. A reset while disabled does not change the register file.", "quantifier": "all states, inputs, enable patterns, reset moments and run lengths", "why_tests_cant": "the tests try one reset moment and one enable pattern per case; a pipeline stage whose enable or reset is treated differently shows only at particular phases", "anchors": ["tests/sim/test_top.py:FlowModifiedTop", "tests/sim/test_top.py:test_store_ignored_on_reset", "src/sentinel/top.py:Top.elaborate"]}
{"id": "C71", "title": "The CSR declarations and covers of checks.cfg", "statement": "Everything the riscv-formal configuration declares about CSRs is true of every run: the zero_mask bits of mip, mie, mtvec and mepc are always zero, mstatus is 0x1800 in all bits but bit 3, the listed CSRs read as zero, mscratch keeps what is written, and the listed illegal CSRs trap with cause 2 on every access. Every situation the cover statements ask for is reachable.", "quantifier": "all reset states, buses, interrupt schedules, programs and run lengths", "why_tests_cant": "riscv-formal checks these for a bounded number of cycles after reset and the simulations for one program", "anchors": ["tests/formal/checks.cfg", "src/sentinel/csr.py", "src/sentinel/formal.py:FormalTop"]}
{"id": "C72", "title": "The simulation harness of the upstream and riscof tests", "statement": "The test memory, host and watchdog form a bus the core's guarantees cover, for any program and interrupt waveform. The program runs as on a RISC-V machine whose memory is the list the test loaded. The value the host returns is the 64-bit number the program left at 0x4000000, so an upstream test passes iff the program stored 1 there; the riscof signature is the machine's memory between the two addresses stored, or the dump raises if that range is not in the memory. Every simulation ends after at most 65536 ticks. The watchdog never reports a panic, and reports a stuck core only if the core has waited for a hundred cycles for an access that neither memory nor host answers; conversely such an access means the test can no longer pass and ends it within 104 ticks.", "quantifier": "all programs and memory sizes up to 64 MiB, initial register contents, interrupt waveforms, with and without the watchdog", "why_tests_cant": "the tests use the harness, they do not test it: a harness that answers wrongly, misses a store or raises a false alarm makes every verdict meaningless", "anchors": ["tests/conftest.py:mproc_inner", "tests/conftest.py:ucode_panic", "tests/upstream/test_upstream.py:wfhw_inner", "tests/riscof/sentinel/riscof_sentinel.py:mk_wait_for_host_write"]}
{"id": "C73", "title": "What bus timing can reveal, and what reset forgets", "statement": "Two runs of the core that fetch the same instruction words, with the same interrupt line and slaves that acknowledge in the same cycles as long as the bus was busy in the same cycles, make requests of the same kind (fetch, load, store) in exactly the same cycles, whatever the registers, addresses and data are, provided that at every fetch interrupts are enabled in both or neither, register-shift amounts and branch outcomes are the same, and the same exceptions are raised. Shift amounts do show in the timing (two cycles per bit). And two cores just out of reset whose x1-x31, MTVEC, MSCRATCH, MEPC and MPIE agree behave identically for ever on the same inputs: nothing else survives a reset.", "quantifier": "all pairs of initial states and memory contents, all inputs, all prefixes of all lengths; for reset all previous histories", "why_tests_cant": "a statement about pairs of runs for all data values and all histories", "anchors": ["src/sentinel/control.py (Sequencer, reset warning)", "src/sentinel/datapath.py", "src/sentinel/microcode.asm", "examples/attosoc.py WBMemory"]}
{"id": "C74", "title": "The sequence tests compare what they claim to compare", "statement": "The simulation test bench that checks registers, PC, CSRs and memory at each instruction fetch (tests/sim/test_top.py) never misses or double-counts a fetch: with the tests' memory, it passes exactly when as many instructions are fetched as there are expected entries and the k-th expected entry equals, for every k, the state in the cycle after the k-th fetch; it can fail only because such an entry differs, never by its assertion on the microcode address; and the values it reads out of the core are the architectural registers, PC and CSRs of the instruction-set machine at that fetch.", "quantifier": "all core states after reset, all memory contents, all interrupt waveforms, all lists of expected values, all times", "why_tests_cant": "it is a statement about what a test can and cannot report, for every program and expectation", "anchors": ["tests/sim/test_top.py make_cpu_tb, test_seq", "tests/sim/conftest.py RV32Regs, CSRRegs", "tests/conftest.py memory, memory_process", "tests/sim/test_witness.py"]}
{"id": "C75", "title": "Interrupts are transparent to the interrupted program", "statement": "Take a program running with interrupts arriving at arbitrary times, whose handlers give back what they found: at the MRET, x1-x31, the MIE register, MTVEC, MEPC and the program's part of memory are as at interrupt entry, and MPIE is set. The program itself raises no exceptions, does not execute MRET, does not use MSCRATCH, MEPC, MCAUSE or MIP, does not read MSTATUS into a register, and reads (fetches and loads) only its own part of memory. Then for every n the n-th instruction of the program, not counting handlers, is the same instruction, with the same PC, registers, interrupt enables, MTVEC and program memory, as the n-th instruction of the same system with the interrupt line held low; handlers may nest, take any time, and use their own memory as they like, and the two systems may have different bus latencies.", "quantifier": "all programs, initial registers and memories, interrupt waveforms, handlers (any length, any nesting), bus latencies, numbers of instructions and interrupts", "why_tests_cant": "a relation between two unbounded runs over all interrupt arrival times", "anchors": ["src/sentinel/microcode.asm save_pc, mret", "src/sentinel/exception.py", "src/sentinel/datapath.py CSRFile", "examples/attosoc.py WBMemory"]}
{"id": "C76", "title": "A simulated test ends with the verdict of the RISC-V machine; the upstream suite passes from every power-up state", "statement": "If a program, run on a RISC-V machine whose memory is the list the test loaded and started at address 0, stores a word at 0x4000000 and then one at 0x4000004 within n instructions, without leaving the memory otherwise and whatever the interrupt line does, then the simulated core returns exactly the number stored, within 69n + 7 ticks, if that is below the host's limit. Hence every riscv-test in tests/upstream/binaries that the suite lists as passing passes, and every one marked xfail fails, whatever the registers hold at power-up, whatever the interrupt line does, with and without the watchdog. Likewise the signature the riscof plugin dumps is the region of the RISC-V machine's final memory that the program names.", "quantifier": "all programs and memory sizes up to 64 MiB, initial register contents, interrupt waveforms, with and without the watchdog; the 53 binaries of the suite", "why_tests_cant": "A simulation runs one program from one register content (all zero) with one interrupt waveform, and its success says nothing about other programs. That no correct program is reported as stuck, timed out or failed by the harness is a claim about all of them.", "anchors": ["tests/upstream/test_upstream.py:test_rv32ui", "tests/upstream/test_upstream.py:test_rv32mi", "tests/upstream/test_upstream.py:wfhw_inner", "tests/upstream/test_upstream.py:memory", "tests/upstream/binaries", "tests/conftest.py:memory_process", "tests/riscof/sentinel/riscof_sentinel.py:runTests"]}
{"id": "C77", "title": "The firmware hex file", "statement": "The hex file the example SoC's generator writes with -x has one line of eight lower-case hexadecimal digits for each of the 1024 words of the SoC's RAM, whatever firmware was given, and reads back as exactly the RAM's initial contents; a random firmware (-r) fits the RAM exactly and is what the file lists, so the file of a random build and that of a firmware have the same shape, as the bitstream patching tools need. On the Arty A7 the option always raises an error instead.", "quantifier": "all firmware images, word lists and assembler outputs, all platforms", "why_tests_cant": "A statement about every firmware image, in particular every word value (padding, letters) and every image length.", "anchors": ["examples/attosoc.py:demo", "examples/attosoc.py:AttoSoC.rom", "examples/attosoc.py:main"]}
{"id": "C78", "title": "What the core needs of its register RAM", "statement": "The transparency of the register RAM (reading the word being written returns the new value) is needed with the memories the project uses, but only by one pattern: with a slave that answers in the second cycle of a request, a RAM that returns the old word on a collision makes dependent back-to-back instructions wrong. For instruction streams in which no instruction's rs1 field is the nonzero rd field of the instruction before it, the RAM may deliver anything on a collision and the core cannot be told apart from the design, on every bus and under every reset pattern. With a slave that never answers in the first two cycles of a request, the read port may deliver anything after every cycle in which the RAM is written (one port is enough), whatever the program.", "quantifier": "all power-up states, input waveforms (including resets), programs, cycles, and values delivered by the RAM", "why_tests_cant": "Garbage from the RAM could reach the data path in any state, for any program, bus timing or value delivered.", "anchors": ["src/sentinel/datapath.py:RegFile", "src/sentinel/ucodefields.py:RegRead", "src/sentinel/microcode.asm:fast_epilog"]}
{"id": "C79", "title": "The output test says what a program writes", "statement": "The simulation test that compares the values a program writes to an output port (test_loop, with its memory model, timeout and watchdog) reports only what happened: it passes only when the transfers at the port carried exactly the expected values in order, it reports a wrong output only when a transfer carried another value than the next expected one, it reports a stuck CPU only when no transfer at the port completed in 65535 cycles and a stuck microcode only when a request stayed unanswered for 100 cycles, and it never reports a panic or an out-of-range memory access. For every program its verdict is that of the instruction-set machine running the same program, and the repository's prime-number program passes from every power-up state whatever the interrupt line does.", "quantifier": "all core states after reset, all memory contents (programs), all lists of expected outputs, all interrupt waveforms, all times", "why_tests_cant": "It is a statement about what a test can and cannot report, for every program and interrupt waveform; the test itself runs one program from one power-up state.", "anchors": ["tests/sim/test_top.py:test_loop", "tests/sim/test_top.py:primes_io_tb", "tests/sim/test_top.py:timeout_process", "tests/conftest.py:memory_process", "tests/conftest.py:ucode_panic"]}
{"id": "C80", "title": "A reset at any moment leaves the memory as after whole instructions", "statement": "With the core on the SoC's memory, whenever and however often the system is reset, the memory in any cycle is exactly (every byte) what the instruction-set machine would leave after booting once more than there were resets, each boot running some number of complete instructions from address 0 with interrupts disabled; no store is torn, lost while a later one survives, duplicated at a wrong place, or made up by the reset. Between resets the number of instructions is that of the fetches completed so far, or one less. So a program that stores its data before its flag can be reset at any cycle without the flag ever appearing without the data.", "quantifier": "all reset waveforms (any crash points, any number of resets), interrupt waveforms, power-up states, memory sizes, memory contents (programs) and cycles", "why_tests_cant": "A reset can hit any cycle of any instruction any number of times; the repository's reset tests use one reset at one microcode address, and say (test_top.py:657-660) that their memory model cannot show whether a cut-off store damages the memory.", "anchors": ["examples/attosoc.py:WBMemory", "src/sentinel/top.py:Top", "tests/sim/test_top.py:test_store_ignored_on_reset", "tests/sim/test_top.py:test_pc_survives_reset"]}
{"id": "C81", "title": "A reset at any moment leaves the registers as after whole instructions, except a shift cut off in the middle", "statement": "The general registers, mtvec and mscratch survive a reset. With the core on the SoC's memory, whenever and however often the system is reset, registers and memory in any cycle are those of the instruction-set machine after a chain of boots, one more than there were resets, each running some number of complete instructions from address 0 with the registers, memory, mtvec and mscratch the boot before left; with one exception: if the instruction that was cut off is a shift, its destination can hold the source shifted by a smaller positive amount, everything else unchanged. mtvec and mscratch are those after the same number of instructions or one more or less (a CSR instruction that also writes a register does so in two steps). So a program can count its boots in a register, each boot counting at most once.", "quantifier": "all reset waveforms (any crash points, any number of resets), interrupt waveforms, power-up states, memory sizes, memory contents (programs) and cycles from 1 on", "why_tests_cant": "A reset can hit any cycle of any instruction any number of times; the repository's reset tests reset once, at one microcode address, after one program.", "anchors": ["src/sentinel/datapath.py:RegFile", "src/sentinel/microcode.asm:slli, sll_loop, srl_loop, sra_loop", "examples/attosoc.py:WBMemory", "tests/sim/test_top.py:test_pc_survives_reset"]}
{"id": "C82", "title": "The whole SoC runs any program like an RV32I machine with RAM and devices", "statement": "On both variants of the example SoC, for any program (also self-modifying, running from RAM mirrors, jumping outside the RAM, taking interrupts from timer and serial port) and any activity on the pins: when the core completes an instruction fetch, its registers, CSRs and every byte of the RAM are those of a sequential RV32I machine that has executed exactly the instructions fetched before, where loads and fetches inside the RAM window (below 0x0200_0000, mirrored every 2^k words) read that machine's own memory, stores outside it leave the memory alone, and loads and fetches outside it give the word the addressed device delivered in that very transfer; and the word fetched from RAM is the one the machine has there.", "quantifier": "all programs and memory contents, memory sizes, UART divisors, pin waveforms, power-up register contents, and all fetches", "why_tests_cant": "Programs, device answers and interrupt times are unbounded; the simulation tests run a handful of programs on the bare core.", "anchors": ["examples/attosoc.py:AttoSoC.elaborate", "examples/attosoc.py:WBMemory", "src/sentinel/top.py:Top"]}
{"id": "C83", "title": "Resetting the SoC at any moment leaves its RAM as after whole instructions and everything else as after power-up", "statement": "On both variants of the example SoC, with resets at any cycles: a reset puts core, peripherals and memory handshake in the state all theorems about the SoC start from, and keeps the RAM, except that a store whose request is on the bus in the cycle of the reset is still carried out; until the next reset the SoC runs exactly as one started from that state. In any cycle, whenever and however often it was reset, the RAM is what the sequential machine with RAM and devices (C82) makes of it by booting once more than there were resets, each boot running some number of complete instructions from address 0 with interrupts disabled; between resets that number is the number of fetches completed up to this cycle or one less.", "quantifier": "all reset waveforms, programs, memory contents and sizes, UART divisors, pin waveforms, power-up states and cycles", "why_tests_cant": "A reset can hit any cycle of any instruction any number of times, also in the middle of a peripheral access; no test of the repository resets the SoC.", "anchors": ["examples/attosoc.py:AttoSoC.elaborate", "examples/attosoc.py:WBMemory", "tests/sim/test_top.py:test_store_ignored_on_reset"]}
{"id": "C84", "title": "Resetting the SoC at any moment leaves its registers as after whole instructions, except a shift cut off in the middle", "statement": "On both variants of the example SoC, whatever program runs and whatever the pins, the timer, the UART and fetches from outside the RAM deliver, even when the program touches an address where nothing answers and the core waits for ever: in every cycle the registers and the RAM together are those of the sequential machine with RAM and devices (C82) after all instructions fetched so far or after all but the last one, or the last one is a shift not preempted by an interrupt whose destination has been shifted by part of the amount; mtvec and mscratch are those after all of them or after all but the last one. With resets at any cycles, registers, RAM, mtvec and mscratch are in every cycle what one more boot than there were resets can leave, each boot starting at address 0 with interrupts disabled from what the one before left.", "quantifier": "all reset waveforms, programs, memory contents and sizes, UART divisors, pin waveforms, power-up states and cycles", "why_tests_cant": "A reset can hit any cycle of any instruction any number of times, also one waiting for a peripheral or hanging on the bus; no test of the repository resets the SoC or looks at registers after a reset.", "anchors": ["examples/attosoc.py:AttoSoC.elaborate", "src/sentinel/datapath.py:RegFile", "src/sentinel/microcode.asm", "src/sentinel/top.py:Top"]}
{"id": "C85", "title": "Interrupts are transparent to a program on the whole SoC, with handlers and program using the devices", "statement": "On both variants of the example SoC, whatever the pins, the timer and the UART do and however often interrupts are taken: as long as every interrupt handler (which may read and write the devices and its own part of the RAM) gives back the general-purpose registers, mtvec, the external interrupt enable and the program's part of the RAM as it found them and returns with MRET to the interrupted address, the interrupted program runs like on a sequential RV32I machine that is never interrupted: each of its instructions finds the same registers, interrupt enables, mtvec and RAM and is the same instruction, and its stores, to RAM or to LEDs, GPIO and UART, have the same address, byte lanes and data, given only what the program's own device reads delivered.", "quantifier": "all programs, handlers (also nested ones), memory contents and sizes, divisions of the RAM between program and handlers, UART divisors, pin waveforms, interrupt times and numbers of interrupts", "why_tests_cant": "An interrupt can hit between any two instructions of any program, and the handler's device accesses run on the same bus and core registers; the repository's interrupt tests use fixed programs and fixed interrupt times on a bare core.", "anchors": ["examples/attosoc.py:AttoSoC.elaborate", "examples/attosoc.py:WBTimer", "examples/attosoc.py:WBSerial", "src/sentinel/microcode.asm", "src/sentinel/exception.py", "src/sentinel/csr.py"]}
{"id": "C86", "title": "A program that initialises before use does not depend on power-up or pre-reset contents", "statement": "After power-up or a reset the registers that reset leaves alone (x1-x31, mtvec, mscratch, mepc, mstatus.MPIE, the register file's and the RAM's read registers, the microinstruction register) hold anything. If a program never uses a register it has not given a value - as the base of a jump, load or store, as branch operand, shift amount or store data, as the trap vector of a trap it takes, as return address and MPIE of an MRET, or as a value that decides whether interrupts are enabled; copying and computing are no uses - then every output of the core is the same in every cycle whatever those contents were, and so are all registers that it has given a value, provided the world around the core reacts equally to equal outputs. On both variants of the example SoC, with the same program in RAM and the same pin waveforms, RAM, LEDs, GPIO outputs, timer and UART (so every pin) are the same in every cycle.", "quantifier": "all programs, all pairs of power-up or pre-reset contents, all memories, slave timings, interrupt and pin waveforms, and all run lengths", "why_tests_cant": "A simulation starts from one set of initial values (zeros, or the declared init values), so it cannot see a dependence on contents that a real register file has after power-up or that an earlier program left before a reset.", "anchors": ["src/sentinel/datapath.py:RegFile", "src/sentinel/datapath.py:CSRFile", "src/sentinel/top.py:Top.elaborate", "src/sentinel/microcode.asm", "examples/attosoc.py:AttoSoC.elaborate"]}
{"id": "C87", "title": "Trap and emulate: served exceptions behave like instructions", "statement": "Let a program run with handlers for its exceptions (ECALL, EBREAK, words the core does not implement, illegal CSR accesses, misaligned loads, stores and targets), and let every handler, when it executes MRET, have done to x1-x31, to the return address and to the program's memory what a fixed function (the service) makes of the registers, the PC and the program's memory at the exception, with MPIE, MIE.MEIE and mtvec as they were. Then at its n-th instruction, counting a served one as one, the program finds exactly the registers, PC, interrupt enables, mtvec and memory of a machine that has the service as one more instruction and no exceptions and no interrupts, and the core fetches that machine's next instruction. This holds whatever the handlers do otherwise, whatever the bus latencies, and with interrupts taken anywhere in between whose handlers give back what they found.", "quantifier": "all programs, services, handlers, memories, slave timings, interrupt waveforms, memories of any size, and all instruction counts", "why_tests_cant": "An emulation library or a system-call layer is tested on a few programs; that every program runs as on a machine with the extra instructions is a statement about all instruction sequences and all points at which interrupts may fall.", "anchors": ["src/sentinel/control.py:Sequencer", "src/sentinel/exception.py:ExceptionRouter", "src/sentinel/microcode.asm", "src/sentinel/datapath.py:CSRFile"]}
{"id": "C88", "title": "System calls on the whole SoC behave like instructions, also when handlers use the devices", "statement": "On both variants of the example SoC: let a program's exceptions be served by handlers that, whatever devices they use, leave x1-x31, the return address and the program's part of the RAM as a function (which may differ from call to call, since a system call may return what it read from a device) makes of them, with MPIE, MIE.MEIE and mtvec unchanged. Then at its n-th instruction, a served one counting as one, the program finds exactly the registers, PC, interrupt enables, mtvec and RAM of a machine that has RAM and devices, no exceptions and no interrupts, and the calls as instructions, and the core fetches that machine's next instruction; device reads of the program itself deliver what they delivered. Interrupts may be taken anywhere in between if their handlers give back what they found.", "quantifier": "all programs, services, handlers, power-up states, RAM sizes, UART divisors, pin waveforms, and all instruction counts", "why_tests_cant": "That a system-call layer is invisible to every program, whenever interrupts and device events fall, is a statement about all programs and all schedules of the pins.", "anchors": ["examples/attosoc.py:AttoSoC", "examples/attosoc.py:WBMemory", "src/sentinel/exception.py:ExceptionRouter", "src/sentinel/microcode.asm"]}
{"id": "C89", "title": "The running time of every program is known exactly, from the instructions alone", "statement": "The cycle in which the next instruction fetch is requested is a fixed function of the instruction, the registers and PC it starts with, whether an interrupt is enabled and requested in the first (for CSR instructions also in the second) cycle after the fetch, and how long the slave took over a load or store; its fetch is acknowledged as long after that as the memory takes. So a simulator of the instruction set that keeps a clock gives, for every n, the exact cycle of the n-th instruction fetch, the word fetched, and the registers, CSRs and memory then. With devices it also gives the exact cycle in which every load and store is acknowledged, with its address, lanes and data. On both variants of the example SoC, as long as the program stays in the mapped address space, a RAM access takes two cycles, and one to a peripheral two (AttoSoC) or six (CSR bus).", "quantifier": "all programs, power-up states, memories, latencies of every slave (also varying by cycle, address and direction), interrupt lines, device data and pin waveforms, and all instruction counts", "why_tests_cant": "A timing table measured on some programs says nothing about another mix of instructions, operands, wait states and interrupts; that nothing else ever influences the time is a statement about all of them.", "anchors": ["src/sentinel/microcode.asm", "src/sentinel/top.py:Top", "src/sentinel/control.py:Sequencer", "examples/attosoc.py:AttoSoC", "README.md"]}
{"id": "C90", "title": "Bit-banging is exact to the cycle: programs determine the waveforms of the LED and GPIO pins", "statement": "A store to the LED, GPIO output or output-enable register whose instruction fetch is acknowledged in cycle t changes the GPIO pins in cycle t+7 and the LEDs in cycle t+8 (in the CSR variant all three in cycle t+8); until then, and under every other instruction, trap or interrupt, the pins keep their value, and before the first store they are 0. A load of the GPIO register returns the input pins as they were in cycle t+5. So the waveform of every output pin, cycle by cycle since reset, is computed by an instruction set simulator with a clock; and for a program that keeps interrupts disabled and uses only RAM and GPIO it is a function of the program and of the input pins alone, whatever the serial line, the timer and the interrupt requests do.", "quantifier": "all programs, RAM contents and sizes, power-up states, waveforms of the GPIO inputs and serial line, UART divisors, interrupts and devices (for the first two claims), all cycles, and both bus variants", "why_tests_cant": "A logic analyser trace covers one program and one set of inputs; that no mix of instructions, wait states, interrupts or device activity shifts an edge by a cycle is a statement about all of them.", "anchors": ["examples/attosoc.py:WBLeds", "examples/attosoc.py:CSRLeds", "examples/attosoc.py:AttoSoC", "src/sentinel/microcode.asm", "src/sentinel/top.py:Top"]}
{"id": "C91", "title": "The whole SoC is, to the last peripheral flip-flop in every cycle, an instruction-set simulator stepped together with the peripherals", "statement": "Take the bus, the address decoder, the RAM and the microcoded core out of either SoC variant and put a simulator of the RV32I instruction set in their place that only keeps a clock: it fetches from an array of bytes, or, outside RAM, shows the peripherals the fetch and takes what they return for an instruction; it looks at the interrupt request in fixed cycles after the fetch, shows the peripherals one request from 5 (load) or 6 (store) cycles after the fetch until it is answered, and nothing otherwise. Then, for any program, until it accesses an address where nothing is (C92), and whatever happens on the GPIO and serial inputs: every instruction is fetched in the same cycle, with the same registers, CSRs and RAM, and LEDs, GPIO, timer and serial port go through the same states in the same cycles, so that every output pin, including the serial line, has the same waveform. The simulator needs nothing but the initial RAM, registers and the waveforms of the input pins.", "quantifier": "all programs (with interrupts, traps, self-modification, loads and stores to every peripheral, code in peripherals) up to their first access to an unmapped address, all RAM sizes, power-up states, UART divisors and waveforms of the input pins, all cycles, both bus variants", "why_tests_cant": "Co-simulation compares one run at a time; that the simulator never drifts from the circuit by a cycle, an interrupt or a flip-flop, for any program and any input waveform, is an invariant over unbounded histories.", "anchors": ["examples/attosoc.py:AttoSoC", "examples/attosoc.py:WBLeds", "examples/attosoc.py:WBTimer", "examples/attosoc.py:WBSerial", "examples/attosoc.py:CSRSerial", "src/sentinel/microcode.asm", "src/sentinel/top.py:Top"]}
{"id": "C92", "title": "Either SoC stops for ever exactly when the program accesses an address where nothing is, at a predictable cycle, and its peripherals run on", "statement": "Neither SoC variant has a bus timeout, so a load, store or fetch at an unmapped address hangs it. The simulator of C91 predicts this exactly. If it comes to such a request, for whatever program and whatever happens on the pins, then in the circuit: the request appears in the cycle the simulator says (5 or 6 cycles after the fetch for a load or store, with the next fetch's request otherwise), with the address, byte lanes and, for a store, data that the instruction set says; from then on it stays on the bus, unchanged and never acknowledged; no instruction is fetched any more and no interrupt is taken; the RAM keeps what the instructions up to then have written (an instruction whose next fetch hangs has had its effect, one whose transfer hangs has not); LEDs, GPIO outputs and output enables keep their values, while timer and serial port run on as in the simulator, so that a letter being sent is completed. Conversely, if the SoC ever stops fetching, the simulator comes to such a request.", "quantifier": "all programs, the first access to an unmapped address whenever it happens, all cycles after it without bound, all RAM sizes, power-up states, UART divisors and waveforms of the input pins, both bus variants", "why_tests_cant": "That a request is never acknowledged and no instruction ever follows is a statement about infinite runs; that nothing else can stop the SoC is one about all programs and all input waveforms.", "anchors": ["examples/attosoc.py:AttoSoC", "src/sentinel/top.py:Top", "src/sentinel/microcode.asm", "src/sentinel/control.py:Control"]}
{"id": "C93", "title": "The serial line shows exactly the frames of the bytes the program stores, starting 8 cycles after each store is fetched", "statement": "On both SoC variants a store to the serial data register fetched in cycle t puts its low byte on the line from cycle t + 8 on if the transmitter is idle in cycle t + 7: a start bit, eight bits with the least significant first, and a stop bit, D cycles each, after which the transmitter is idle again, whatever the program does next; otherwise the byte is lost. Over a whole run the line is exactly the sequence of these frames, one for each store that is not lost, and high in between: the list of bytes and start cycles that an instruction-set simulator computes from the program determines the line and whether the transmitter is idle in every cycle. For a program that keeps interrupts disabled and reads only RAM and GPIO, the list is a function of the program and the GPIO pins alone. No other instruction, interrupt, or traffic to another device puts anything on the line.", "quantifier": "every program, initial memory and register contents, every number of instructions and every cycle, every bit length D >= 1, every history of the GPIO and receive pins, both SoC variants", "why_tests_cant": "a test sends a few strings with one baud rate and looks at the characters; the claim is about each cycle of the line, for every program and every bit length, including the bytes that are lost because the transmitter is busy", "anchors": ["examples/attosoc.py:UART", "examples/attosoc.py:WBSerial", "examples/attosoc.py:CSRSerial", "examples/attosoc.py:AttoSoC", "src/sentinel/microcode.asm", "src/sentinel/top.py:Top"]}
{"id": "C94", "title": "A byte on the serial input is what the program loads: device registers are read exactly 5 cycles after the load is fetched, and a wire between two boards carries every byte that is read in time", "statement": "On both SoC variants a load from a device register fetched in cycle t returns what the register shows in cycle t + 5: the timer's interrupt flag, the two serial interrupt flags, the received character (which is taken: cycle t + 6 no longer has it); on the CSR variant also the GPIO pins and the write-only registers, which read 0, and the timer's flag is cleared in cycle t + 6. If the receiver is idle and empty in cycle c and the serial input pin carries a character (start bit, eight bits least significant first, stop bit, E cycles each) from cycle c on, where the receiver's bit length D tolerates E, i.e. D/2 + 1 < E and 9E <= D/2 + 1 + 9D < 10E (E = D >= 3, and with D = 104 every E from 99 to 109), then any load from the serial data register fetched in a cycle t with c + 2 + D/2 + 9D <= t + 5 returns exactly that character, without a framing error, provided nothing asked for the register between the arrival and the load; the receiver is idle and empty as long as the pin has never been low. The only instructions that ask are loads from the register, or an instruction fetch from its address; so it is enough that no instruction of the program between the arrival and the load does that. The tolerated lengths are all there are: with any other E some character is received with a framing error. So if the serial output of one board is wired to the input of another, of the other variant, with bit lengths that go together, whatever the programs do and whichever board was switched on first, the byte a store on one board sends is the byte the load on the other returns.", "quantifier": "every program, memory and register contents on both boards, every cycle of the store and of the load, every switch-on offset between the boards, every pair of bit lengths D, E >= 1 of receiver and sender, every history of the other pins, every load size and signedness, both directions between the SoC variants", "why_tests_cant": "a loopback test sends a few characters with one program at one phase; the claim ranges over every relative timing of sender, receiver and polling loop, and says exactly from which cycle on a load sees the character", "anchors": ["examples/attosoc.py:UART", "examples/attosoc.py:WBSerial", "examples/attosoc.py:CSRSerial", "examples/attosoc.py:AttoSoC", "src/sentinel/microcode.asm"]}
{"id": "C95", "title": "A start bit on the serial input interrupts the program: the interrupt line is up from the cycle after the character is complete until the flags are read, and the next instruction with interrupts enabled gives way to the handler", "statement": "On both SoC variants, if the receiver is idle and empty in cycle c and the serial input pin is low in that cycle, then with A = c + 2 + D/2 + 9D the interrupt line is high in every later cycle than A up to the first in which the program begins to ask for the serial interrupt flags, whatever the pin does after the start bit. So the first instruction fetched in cycle A or later, with MSTATUS.MIE and MIE.MEIE set and no load of the flags (or fetch from their address) since, is not executed: the next fetch is at MTVEC, MEPC holds the instruction's address, MCAUSE is 0x8000000B and MIE is cleared. The only instructions that ask for the flags are loads from their address or fetches from there, so this can be read off the program.", "quantifier": "every program, memory and register contents, every cycle c of the start bit, every bit length D >= 1, every later history of the pins, every instruction word that is interrupted, both SoC variants", "why_tests_cant": "whether an interrupt is lost depends on the phase of the character relative to the instruction stream and to the reads of the flag register; the claim ranges over all of them", "anchors": ["examples/attosoc.py:UARTRX", "examples/attosoc.py:WBSerial", "examples/attosoc.py:CSRSerial", "examples/attosoc.py:AttoSoC", "src/sentinel/microcode.asm"]}
