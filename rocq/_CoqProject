-Q theories Verif
theories/MicrocodeText.v
theories/Asm.v
theories/Bits.v
theories/Ucode.v
theories/Cpu.v
theories/Isa.v
theories/BitLemmas.v
theories/Timed.v
theories/Wf.v
theories/Sym.v
theories/Blocks.v
theories/CsrBlocks.v
theories/DecodeOk.v
theories/Boundary.v
theories/Sim.v
theories/Main.v
theories/Obs.v
theories/PropsBus.v
theories/PropsInv.v
theories/Enable.v
theories/Observe.v
theories/PropsIsa.v
theories/Latency.v
theories/PropsFrame.v
theories/InputsMatter.v
theories/Memory.v
theories/SocMem.v
theories/Crash.v
theories/Harness.v
theories/Leak.v
theories/Examples.v
theories/AsmProofs.v
theories/Layout.v
theories/SrcMux.v
theories/Hazard.v
theories/RegRam.v
theories/Uart.v
theories/Periph.v
theories/Soc.v
theories/SocIo.v
theories/IoMem.v
theories/SocEx.v
theories/Demo.v
theories/ProgGen.v
theories/SocProg.v
theories/Primes.v
theories/Arty.v
theories/Rom.v
theories/HexFile.v
theories/CsrBus.v
theories/CsrSoc.v
theories/CsrIoMem.v
theories/LatencySoc.v
theories/CrashReg.v
theories/CrashSoc.v
theories/Upstream.v
theories/UpstreamEx.v
theories/SeqTest.v
theories/LoopTest.v
theories/Transparent.v
theories/TransparentEx.v
theories/IoTransparent.v
theories/IoTransparentEx.v
theories/PowerUp.v
theories/PowerUpSoc.v
theories/PowerUpEx.v
theories/Emulate.v
theories/EmulateEx.v
theories/EmulateSoc.v
theories/EmulateSocEx.v
theories/Clocked.v
theories/ClockedSoc.v
theories/ClockedEx.v
theories/Waves.v
theories/WavesSoc.v
theories/WavesEx.v
theories/Whole.v
theories/WholeSoc.v
theories/WholeEx.v
theories/Lines.v
theories/LinesSoc.v
theories/LinesEx.v
theories/Reads.v
theories/ReadsEx.v
theories/Wake.v
theories/WakeEx.v
theories/CsrSocProg.v
theories/BusDetect.v
theories/Rvfi.v
theories/RvfiTrace.v
theories/RvfiProps.v
theories/RvfiRd.v
theories/RvfiCsr.v
theories/RvfiMip.v
theories/RvfiTop.v
theories/RvfiEx.v
theories/RvfiTrapRd.v
theories/Checks.v
theories/RvfiSpec.v
theories/RvfiAct.v
theories/RvfiLock.v
theories/RvfiLockEx.v
theories/Wrapper.v
theories/WrapperEx.v
theories/Firmware.v
theories/FirmwareSys.v
theories/FirmwareEx.v
theories/Automaton.v
theories/FirmwareEcho.v
theories/FirmwareEchoLoop.v
theories/FirmwareEchoEx.v
theories/FirmwareEchoEx2.v
theories/Assumptions.v
