# Formal model of the xytronic-lf firmware

Rocq/Coq 8.16.1, plain standard library, integers as `Z`, no functors, no axioms.
Sources: `rocq/theories`. The C sources are those of `/repo` (unchanged, never executed).

Contents: 1 the model, 2 executions and assumptions about the environment, 3 specifications and
statements, 4 proof structure, 5 trusted base, 6 what is not modelled, 7 findings about the code,
8 testing of the theorems.

## 1. The model

The firmware is C for an 8-bit AVR (`int` = 16 bit, GCC). Each C function becomes a total, computable
Gallina function in an `M*.v` file (definitions only). A C function that can execute undefined behaviour
returns `option`; `None` means *undefined behaviour happened* (signed overflow, division by zero,
out-of-bounds array access). Wrapping conversions are explicit (`u8 u16 u24 u32 s16 s24`).
Hardware registers that matter (OCR1A, ports, EEPROM cells and busy state, interrupt enables, the ADC
enable) are model state. Every definition cites file and lines; simplifications are in the same comment.

| file | models |
|------|--------|
| `Base.v` | integer conversions, overflow checks, option monad, list access |
| `MUtil` `MFixpt` `MScale` `MRing` `MBitmap` `MFilter` `MTimer` `MPid` | util.h/.c, fixpt.h/.c (24-bit Q.6 numbers with 32-bit intermediates), scale.c, ring.c, bitmap.h, filter.c, timer.c, pid.c |
| `MConf` | the build options of the Makefile (8 switches, number of EEPROM slots, effect of an out-of-range EEPROM address) |
| `MPwm` `MCurr` | pwm_current.c, controller_current.c |
| `MTempMap` `MSens` | temp_to_amps and its constants, the two measurement channel configurations |
| `MSettings` | settings.c: cache, byte layout, EEPROM, interrupt, boot scan |
| `MSseg` `MDisplay` `MText` | sseg.c and the port registers, display.c, the text formatting of menu.c |
| `MState` | the static variables of all modules in one record `sys` |
| `MTemp` `MMeas` `MMenu` `MMain` | controller_temp.c + presets.c, measure*.c, menu.c + buttons.c (+ the display/UART switch), main.c: boot, `step` |
| `MDebug` | debug_uart.c line formats and the receiver dumpcurves.py |
| `MCsv` | the file written by dumpcurves.py, with exact double precision arithmetic (SpecFloat) and `%f` |
| `MTele` | the functions that make debug calls, with the calls and the bytes they send |
| `MUart` | the USART transmitter, timer 0 and the interrupt flag in CPU cycles, as used by debug_uart.c and timer.c |
| `MFine` | measure_work, menu_work and buttons_work with interrupts inside |
| `MHeat` | timer 1 and the heater pin, as programmed by pwm_current.c |
| `MAdc` | the converter and its registers, as programmed by measure.c |
| `MEep` | the EEPROM and its registers, as accessed by settings.c |
| `MPins` | the writes to the port registers one by one: power-up, display and transmitter on and off |
| `MSim` | the simulator: serial port, converter input and PWM output of simulator.cxx and pyxytronic.cxx, xytronic_simulator.py (decoder, conversions) |
| `MCircuits` | pwm.py, rcnet.py, voltagedivider.py of the simulator's circuits, over the rationals (sine.py is not modelled) |
| `MSimIrq` | the interrupt hand-shake of the simulator's two threads, one step for each access to a shared flag, any schedule |
| `MSimHw` | the simulated timer and converter with the steps of measure.c that concern them, any interleaving |
| `MSimSet` | the simulator's access to the settings (simulator.cxx), the temperature control of its window |
| `MInt24` `MHostFix` | tests/fake/int24.h, the classes the unit tests use instead of the 24-bit type; fixpt.c, scale.c, filter.c, pid.c, timer.c as compiled by the host |

## 2. Executions and assumptions about the environment

`event` (SpecSys.v): 1 ms tick, ADC interrupt with a 10-bit code, EEPROM-ready interrupt, end of the
programming of a byte, one call of measure_work / menu_work / buttons_work (with a PINB value) /
display_work / settings_work, power failure and power-up (with an arbitrary value for the byte being
programmed). Events come in **any order**; the main loop order of main.c:77-96 is one of them.
`reach C y`: state `y` is reached after power-up with the factory EEPROM image; `reach1`: without a second
power-up. `ev_ok` lists what the environment guarantees:

* at most 65534 conversions per averaging window (the 16-bit sample counter);
  `SpecLive.served` replaces this by rates (limits_ok) and C68 proves that they imply it;
* the settings timer is not polled while a store is running (64 bytes need at most 218 ms, the next store
  begins at least 1000 ticks later: C53_store_gap);
* without the EEPROM ring: power does not fail while a byte is being programmed (C56_noring_refuted shows
  that this is needed).

Theorems about keys and menus use, in addition, `in_time` (no software timer is polled more than 30 s
late) or `prompt` (menu_work every 25 ms, buttons_work every 10 ms). Theorems about reaction times use
`served` (a conversion at least every A ms, measure_work at least every B ms).

`SpecLoop.loop` assumes nothing but speeds: the work functions are called in the order of main.c:77-91 and
an iteration, a conversion, the programming of a byte and the EEPROM interrupt take at most given times.
C72 proves that every such execution meets `ev_ok`, is `reach`able, `served` and (iterations of at most
5 ms) `prompt`, so the assumptions above are not assumptions about the firmware. A reset by the watchdog is
an `EPower` event (with any value in the byte being programmed); `guarded` is the bound of 300 ms it
enforces (C74). The time between reset and the first iteration is not counted.

Atomicity: in `step` an interrupt happens between two work functions, not inside one. `MFine.fstep` removes
this assumption: measure_work, menu_work and buttons_work with any interrupts before every read of the tick
counter. These points stand for all places: the interrupts change only the tick counter (read with interrupts
disabled), the measurement sums and flag (the ADC interrupt disables itself when the window is full, and the main
loop only reads them then: C33_handover) and the EEPROM state (the interrupt reads the live settings cache, of
which every change is followed by a point; C51_mixture is bytewise, so it also covers an interrupt between the bytes
of one assignment). The other two work functions read the clock once, before they change anything. C81-C83 prove the
state properties and the safety properties for these executions (`freach`), which include those of `reach`
(C81_includes). C97 proves the reaction times of C68-C71 for them (`SpecFineLive.fserved`: the interrupts inside have to be
on time too; a result counts as handled when measure_work returns). C99 proves the user interface automaton for them
(`SpecFineUI`: the automaton of SpecUI with delays inside the polls). C107, C109, C110 and C111 prove the bounds of C106
(settings), C95 (current sensor), C88 (iron hotter than the set-point) and C86 (cold iron) for them. The other bounds of C84-C96 and the heater pin are proved for `step` only.

Heater pin: `SpecHeat.wired` runs timer 1 (data sheet of the ATmega88, mode 14: compare register effective at the
next BOTTOM, pin set at BOTTOM and cleared at the match) beside an execution, in units of 64 CPU cycles, 126 of
which make a tick. The timer has any position at power-up and the pin any level up to its first BOTTOM. Time
passes between the events only, so a work function is short here; executions are not restricted by that
(C84_every, C85_every: every one occurs, at every position of the timer).

Iron: `SpecTip.tip` closes the loop: a tip of bounded rise, lag and sensor error, whose temperature every conversion reports.
The iron is a set of assumptions, not a model; C101 bounds the temperature under them, for executions in which the control
stays on, the sensor adjustment unchanged and the power on.

Converter: `MAdc` models ADMUX, ADCSRA, ADCSRB, DIDR0 and the running conversion (data sheet), and the register
accesses of measure.c; `SpecAdc.metered` runs it beside `step`. C87 shows that the flag `m_adc` of `MMeas` is
exactly what the registers do, and that no stale or foreign conversion enters an average. Conversion times and the
analogue side are not modelled.

EEPROM: `MEep` models EEAR, EEDR, EECR with the four-cycle life of EEMPE, the operation in progress and the cells; an
access the data sheet forbids is `None`. `SpecEep.eerun` runs it beside `step`. C94 shows that the EEPROM fields of
`MSettings` are exactly what the registers do, also across a watchdog reset while a byte is being programmed.

## 3. Specifications and statements

`Spec*.v` state what is expected, with relations over integers and histories, not with the helpers of the
model: `SpecNum` (rounding), `SpecPid` (the PID law over integers), `SpecSmall`, `SpecCurr` (call sequences
of the current controller), `SpecSettings` (journal: which image is committed), `SpecDisplay` (segments,
ports), `SpecSys` (executions, calibration formulas), `SpecRun` (histories: last plausible temperature,
result logs, windows, clocks), `SpecUI` (an automaton of the complete user interface over unbounded time),
`SpecHost` (telemetry lines, 24-bit arithmetic), `SpecLive` (stopwatches and reaction times), `SpecLoop` (the
main loop in its order, hardware of known speed), `SpecControl` (the control laws as relations between a
state, its history and the next state), `SpecMix` (which settings were in use during a
store), `SpecFine` (executions with interrupts inside the work functions), `SpecEye` (which segments glow, how long a digit has been dark), `SpecTele` (executions with everything sent, what
the receiver shows), `SpecHeat` (executions with the heater pin, how long it was on),
`SpecPins` (pins at rest, pending bytes), `SpecTip` (the tip of the iron in the loop), `SpecFineUI` (the automaton with interrupts inside the polls), `SpecUart` (CPU
cycles, lines and ticks), `SpecWarm` (how long a hot tip has been wanted), `SpecAdc` (which
conversions were read), `SpecEep` (executions with the EEPROM registers), `SpecDrift` (executions that keep the set-point and the gains), `SpecSense` (how long the codes of the current sensor have been in a range), `SpecFineSense` (the same with interrupts inside the work functions), `SpecFineWarm` (how long the set-point has been the same, with interrupts inside the work functions), `SpecCsv` (a reader of the table, what a number shows), `SpecSimSet` (the simulator's settings access), `SpecCircuits` (the wave of a pulse width modulation), `SpecSimIrq` (the interrupt flag as the device would have it), `SpecSimHw` (times of the iterations, values and their inputs), `SpecStor` (what an event of the firmware is for the storage), `SpecStorT` (deadlines and stopwatches of the storage).

`Prop*.v` contain the property theorems only, each closed by `exact`, followed by `Print Assumptions` and
by an `Example` that exhibits a concrete non-trivial execution meeting the hypotheses. `MANIFEST.json`
maps properties to theorems (generated by `tools/mkmanifest.py`). Where the property is false of the code
there is a theorem `..._refuted` with a concrete execution, and theorems stating what holds instead.

## 4. Proof structure

* Arithmetic: every function equals a relational specification for all operands (`PNum PSmall PScale PPid`).
* Current controller: invariant over arbitrary call sequences (`PCurr`).
* Settings: a journal machine (modify, work, interrupt, power loss) refined to "last committed image"
  (`PSettings`), stores mixed with changes (`PMix`), then value ranges that survive torn and mixed stores (`PSysSet`).
  `PStor` to `PStor3` project every execution of the firmware (`freach`) to one of the storage (`sreach`): a partial-correctness
  logic for the functions with interrupts inside, one lemma for each function that stores (C106). `PStorT` adds stopwatches to the storage:
  the invariant bounds the age of an order and of a store (C107).
* `PCsv`: the quotient of two doubles of SpecFloat is within 4 units of the last place (no library of floating point proofs is used), hence the decimals
  written; `PCsv2`: the text and its reader; `PCsv3`: streams and executions of the firmware (C108).
* System: one invariant `sinv4` preserved by every event (`PSys PSysMeas PSysMenu PSysDisp PSysBtn PSysStep
  PSysRun`), from which definedness (C56) and the state properties follow; what each event does to the
  controllers (`PSysCC`); histories by induction (`PSysSafe PSysLog PSysWin`).
* User interface: the firmware simulates the automaton of SpecUI (`PSysUI`..`PSysUI7`).
* Live properties: stopwatch invariants (`PLive PLive2 PLive3`, for the current sensor `PSense PSense2`, for the integral action `PDrift PDrift2 PDrift3`).
* Main loop: the settings part of the state under every event (`PStore`), clocks of the EEPROM and the loop
  (`PLoop`), no deadlock and the polling of keys and menu (`PLoop2`), when a change is stored (`PLoop3`).
* Control laws in operation: exact steps of both PIDs (`PControl`), what happens to their memory at every other
  event (`PMem`); multiplexing of the display at register level and its refresh rate (`PEye`).
* Debug output: erasing the calls gives the firmware (`PTele`), each call and the receiver (`PTele2`), postconditions
  of the functions with calls (`PTele3 PTele4 PTele5`), the invariants (`PTele6`), amounts and statements (`PTele7`).
* Interrupts inside the work functions: rules for computations with points, what an interrupt can change (`PFine`), menu
  and buttons keep the invariant (`PFine2 PFine3 PFine4`), a measurement runs the controllers as without interrupts but
  with another time step (`PFine5 PFine6`), no interrupts (`PFine7`), the histories (`PFine8`), the stopwatches (`PFineT`-`PFineT3`),
  the reactions (`PFineT4 PFineT5`), statements and examples (`PFineT6`), the current sensor (`PFineS PFineS2`), the controller's clock and the iron
  hotter than its set-point (`PFineW PFineW2 PFineW3`), a cold iron (`PFineD PFineC PFineC2 PFineC3`), the user interface (`PFineU`-`PFineU9`).
* Heater pin: the history of the pin as a sequence of periods (`PHeat`), its bounds for both kinds of executions (`PHeat2`).
* Simulator: ring buffer, cutting into lines, decoder (`PSim`), the firmware in it (`PSim2`), conversions (`PSim3`), access to the settings (`PSimSet`).
* `Trace TraceLive TraceLoop PSysTrace* PSettingsEx PLiveEx PLoopEx PControlEx PEyeEx PTeleEx PFineEx PHeatEx PWarmEx PAdcEx PEepEx PSimEx PSimSetEx PStor4 PStorTEx PCsvEx`: concrete executions by `vm_compute`, used only for examples and
  refutations.
* `forallb` + `vm_compute` over a finite domain lifted by `forallb_forall` is used where the domain is really
  finite (10-bit codes, 7-segment glyphs, bytes); the bound is part of the statement then.

## 5. Trusted base

Coq's kernel (coqc 8.16.1 with `vm_compute`), the statements in `Prop*.v` together with the definitions they
mention (`Spec*.v`, `M*.v`), and the faithfulness of the `M*.v` files to the C code as GCC compiles it.
`Print Assumptions` reports **"Closed under the global context" for every theorem** in `Prop*.v`. No axiom,
no `Admitted`, no kernel switch. (The checker lists ssreflect's `Under_rel` module fields as library axioms: they
come with `From Coq Require Import Lia`'s transitive dependencies and are used by no theorem here.)

## 6. What is not modelled, and simplifications

* Interrupts inside work functions for the bounds of C84-C96 and the telemetry (section 2).
* Except in C100 (`MUart`) time is counted in ticks; while the debug output is on ticks are lost (bounded by C100), so reaction
  times in ticks (C70) stretch accordingly in the debug mode.
* The watchdog other than as a reset at any time (section 2), the fuses, the start-up code, the analog circuitry, the optics of the display.
* Telemetry: `step` does not contain the debug calls; `MTele.tstep` does (C78 proves that they agree).
* `float` constants are exact rationals before the final conversion to fixed point. `<<`/`>>` of negative
  values are arithmetic, as GCC defines them. avr-libc's `utoa/ltoa` and Python's `int`, `strip`, `split` follow
  their documentation; non-ASCII bytes are dropped before parsing; the rounding of the receiver's floats is modelled in `MCsv` only (600 random values
  were compared with the output of CPython: no difference).
* CONF_CURRCUTOFF (1.8 A) and CONF_CURRCUTOFFHYST (0.1 A) have the values of the Makefile; F_CPU is 8 MHz.
* CONF_PRESETS=0 does not compile (`presets_store` is undefined but used), so it is no configuration of the model.
* buttons_work samples PINB once per call (it does); contact bounce is any sequence of PINB values.
* Single register writes are modelled for the ports only (`display_writes`, C77_clean; `MPins`, C102); timer 1 and its
  control of PB1 start as one state change (MHeat).
* Of the simulator: its mutexes (each guarded access is one step), the memory model of C++ (the volatile flags of the hand-shake are
  taken as sequentially consistent in `MSimIrq`), the end of its thread, the graphical interface (but for its temperature control), sine.py, double precision rounding (`MCircuits` is over the rationals and
  takes the value of the exponential in rcnet.py as a parameter). `simulated` executions use the firmware as compiled for the device (16-bit `int`).
* A tick is the unit of time; its real length is 1.008 ms (C21).

## 7. Findings about the code

Refuted properties (concrete executions are in the theorems):
* C04 division by zero returns -1/+1 raw instead of saturating (FIXPTBIG_MAX is cast to 24 bits).
* C13 priming the ADC filter stores v instead of v << shift: the first filtered currents are too small.
* C19 an expired timer that is not polled for 32.8 s looks unexpired again. C21 the tick is 1.008 ms.
* C29 after a temperature sensor failure up to 0.5 A stay commanded (integrator). C30 before the first plausible
  temperature up to 2 A are commanded. C31 after more than 32.8 s without a run the time step of a PID is negative.
* C84 switching the heater off (also in an emergency) takes effect at the end of the PWM period only, up to 262 ms later.
* C48 the heating dot lags one poll behind a ramped set-point.
* C51, C60 a store interrupted by a change of the settings writes a mixture; without the ring a power failure
  mixes old and new bytes; C36_power_refuted: a mixture can be a 483 degree preset; C56_noring_refuted: or an
  out-of-range preset index, that is undefined behaviour at the next boot.
* C54 the boot scan reads one slot behind the array (address wraps on the device). C55 an erased EEPROM makes the
  boot access a preset out of bounds.
* C57 dumpcurves.py ignores lines with two names (the PID terms). C58 a value that changed while the debug output
  was off is never reported; C79_stale_refuted: nor is one after a second greeting, until it changes.
* C108_noise_refuted: a garbled line with a number of more than 308 digits ends dumpcurves.py (OverflowError is not caught).
* C90, C91 xytronic_simulator.py takes one line per reading and only when new bytes came, but a measurement sends ten lines:
  its plots fall behind without bound, and since the greeting has two lines they are never up to date.
* C100: each debug line of n bytes is sent with interrupts disabled and costs the clock at least n - 3 ticks: in debug mode the
  time stamps, the averaging windows, the timeouts and the time steps of the PID controllers are too short by these.
* C102: sseg_exit clears the (active low) segment pins before it makes them inputs: the driven digit flashes all segments for some
  cycles; and bytes still being sent appear on the segment pin PD1 for up to 2.3 ms after the display is on again.
* C103_coarse_refuted: the simulator's PWM generator leaves the wave when a time step is longer than the on or the off part of
  the cycle, not only when it is longer than the cycle (only then it warns).
* C104_start_refuted: in the simulator interrupt handlers may run before irq_enable, until the first critical section of the start-up.
* C105: if an iteration of the simulator's I/O thread takes longer than 1 ms ticks are lost; if the system time is set back there are
  too many; if a conversion ends while interrupts are suspended, a value of one input can be taken for one of the next.
* C96_dead_band: with the factory gains deviations below 0.4 degrees are not integrated (the increment is rounded to 0), and
  one converter code is 1.64 degrees; the tip may stay up to 0.4 degrees off without being corrected.
* C93 reading a gain in the simulator clears the memory of the temperature controller, reading the idle temperature
  orders an EEPROM write; an out-of-range preset index can be written (undefined behaviour).
* C07 (1 or 8 digits), C44 (beyond 32767 degrees), C59 (mixed comparisons), C25 (API level only): limits of helper
  functions that the firmware does not reach.

Other observations made while modelling:
* pwmcurr_init sets the direction of the pin, then connects it to the timer, whose output latch is low after a reset and
  is set at the first BOTTOM only: the heater may be on for up to 262 ms after each reset (left open by `MHeat`).
* Values above 500 degrees count as implausible: heating goes on with the last plausible value for up to 3 s (bounded by C70_overheat).
* If a main loop pass takes more than 10 ms the debounce clock falls behind; after 32.7 s of lag the keys are dead for 32.7 s.
* If passes take 2 ms the multiplexer clock (+1 ms per call) falls behind, and 65.5 s after power-up the display
  stands still, one digit lit, for 32.7 s (C77_slow_refuted).
* Switching the display off (sseg_exit) lights all segments of the driven digit for some instructions.
* contrcurr_set_enabled(false, ..) would override an emergency; the firmware never calls it (C24_firmware).
* HIGH_TEMP stays set while the temperature controller is off (safe: PWM off).
* Every step of a held PLUS or MINUS re-arms the 1 s delay of the store, even at the limit where nothing changes
  (C73_held_refuted): power-off with the key held loses all of the change.
* A held key re-arms the menu time-out. Releasing one key and pressing PLUS or MINUS in the same sample starts a new ramp.
* The iron key released after 1 s or more is a tap if no sample saw it held after 1 s (C37_tap).
* With CONF_BOOST=0 the gain sets 1 and 2 are zero and unused.
* Clearing an emergency does not restart the PID clocks (cause of C31).

## 8. Testing the theorems

`UnitTests.v` transcribes the project's own unit tests (test_common, test_fixpt, test_scale, test_pid, test_timer;
about 300 checks, by `tools/mkunittests.py`) and runs them on the model: all pass, and the one its authors disabled
as failing fails. This is evidence for the faithfulness of the arithmetic files, not a proof.

`seeded/LOG.jsonl`: realistic bugs seeded into a scratch copy of the model, which theorems then fail, and which
theorems were tightened. A harness replaces every proof that fails by an admitted one and lists all property
theorems that depend on an admitted lemma, so that one run shows everything that breaks; the primary failures are
given first.
