(** Generated by tools/gen_asm.py from /repo/sm2/sm2p256_amd64.s: the instructions of its straight-line field
    routines, one Coq constructor per instruction, with the line of each.  The #defined names are replaced by the
    registers they stand for; loads of the pointer arguments (MOVQ name+off(FP), reg) are dropped: the operand
    (8*i)(ptr) is [Mem k i], word i of argument k (0: first input, 1: second input, 2: result). *)
From Coq Require Import ZArith List.
From Verif Require Import P256_asm_model.
Import ListNotations.
Local Open Scope Z_scope.

(* sm2p256Sqr, sm2p256_amd64.s:166-334 *)
Definition c_sm2p256Sqr : list instr := [
   MOVQ (Mem 0 0) (Reg R14) ; (* :170 *)
   MOVQ (Mem 0 1) (Reg AX) ; (* :172 *)
   MULQ (Reg R14) ; (* :173 *)
   MOVQ (Reg AX) (Reg R9) ; (* :174 *)
   MOVQ (Reg DX) (Reg R10) ; (* :175 *)
   MOVQ (Mem 0 2) (Reg AX) ; (* :177 *)
   MULQ (Reg R14) ; (* :178 *)
   ADDQ (Reg AX) (Reg R10) ; (* :179 *)
   ADCQ (Imm 0) (Reg DX) ; (* :180 *)
   MOVQ (Reg DX) (Reg R11) ; (* :181 *)
   MOVQ (Mem 0 3) (Reg AX) ; (* :183 *)
   MULQ (Reg R14) ; (* :184 *)
   ADDQ (Reg AX) (Reg R11) ; (* :185 *)
   ADCQ (Imm 0) (Reg DX) ; (* :186 *)
   MOVQ (Reg DX) (Reg R12) ; (* :187 *)
   MOVQ (Mem 0 1) (Reg R14) ; (* :189 *)
   MOVQ (Mem 0 2) (Reg AX) ; (* :191 *)
   MULQ (Reg R14) ; (* :192 *)
   ADDQ (Reg AX) (Reg R11) ; (* :193 *)
   ADCQ (Imm 0) (Reg DX) ; (* :194 *)
   MOVQ (Reg DX) (Reg R15) ; (* :195 *)
   MOVQ (Mem 0 3) (Reg AX) ; (* :197 *)
   MULQ (Reg R14) ; (* :198 *)
   ADDQ (Reg R15) (Reg R12) ; (* :199 *)
   ADCQ (Imm 0) (Reg DX) ; (* :200 *)
   ADDQ (Reg AX) (Reg R12) ; (* :201 *)
   ADCQ (Imm 0) (Reg DX) ; (* :202 *)
   MOVQ (Reg DX) (Reg R13) ; (* :203 *)
   MOVQ (Mem 0 2) (Reg R14) ; (* :205 *)
   MOVQ (Mem 0 3) (Reg AX) ; (* :207 *)
   MULQ (Reg R14) ; (* :208 *)
   ADDQ (Reg AX) (Reg R13) ; (* :209 *)
   ADCQ (Imm 0) (Reg DX) ; (* :210 *)
   MOVQ (Reg DX) (Reg CX) ; (* :211 *)
   XORQ (Reg R15) (Reg R15) ; (* :212 *)
   ADDQ (Reg R9) (Reg R9) ; (* :214 *)
   ADCQ (Reg R10) (Reg R10) ; (* :215 *)
   ADCQ (Reg R11) (Reg R11) ; (* :216 *)
   ADCQ (Reg R12) (Reg R12) ; (* :217 *)
   ADCQ (Reg R13) (Reg R13) ; (* :218 *)
   ADCQ (Reg CX) (Reg CX) ; (* :219 *)
   ADCQ (Imm 0) (Reg R15) ; (* :220 *)
   MOVQ (Mem 0 0) (Reg AX) ; (* :222 *)
   MULQ (Reg AX) ; (* :223 *)
   MOVQ (Reg AX) (Reg R8) ; (* :224 *)
   MOVQ (Reg DX) (Reg R14) ; (* :225 *)
   MOVQ (Mem 0 1) (Reg AX) ; (* :227 *)
   MULQ (Reg AX) ; (* :228 *)
   ADDQ (Reg R14) (Reg R9) ; (* :229 *)
   ADCQ (Reg AX) (Reg R10) ; (* :230 *)
   ADCQ (Imm 0) (Reg DX) ; (* :231 *)
   MOVQ (Reg DX) (Reg R14) ; (* :232 *)
   MOVQ (Mem 0 2) (Reg AX) ; (* :234 *)
   MULQ (Reg AX) ; (* :235 *)
   ADDQ (Reg R14) (Reg R11) ; (* :236 *)
   ADCQ (Reg AX) (Reg R12) ; (* :237 *)
   ADCQ (Imm 0) (Reg DX) ; (* :238 *)
   MOVQ (Reg DX) (Reg R14) ; (* :239 *)
   MOVQ (Mem 0 3) (Reg AX) ; (* :241 *)
   MULQ (Reg AX) ; (* :242 *)
   ADDQ (Reg R14) (Reg R13) ; (* :243 *)
   ADCQ (Reg AX) (Reg CX) ; (* :244 *)
   ADCQ (Reg DX) (Reg R15) ; (* :245 *)
   MOVQ (Reg R15) (Reg SI) ; (* :246 *)
   MOVQ (Reg R8) (Reg AX) ; (* :248 *)
   MOVQ (Reg R8) (Reg R15) ; (* :249 *)
   SHLQ (Imm 32) (Reg R8) ; (* :250 *)
   SHRQ (Imm 32) (Reg R15) ; (* :251 *)
   ADDQ (Reg AX) (Reg R9) ; (* :252 *)
   ADCQ (Imm 0) (Reg R10) ; (* :253 *)
   SUBQ (Reg R8) (Reg R9) ; (* :254 *)
   SBBQ (Reg R15) (Reg R10) ; (* :255 *)
   SBBQ (Imm 0) (Reg R11) ; (* :256 *)
   MULQ (Cst 0) ; (* :257 *)
   ADDQ (Reg AX) (Reg R11) ; (* :258 *)
   ADCQ (Imm 0) (Reg DX) ; (* :259 *)
   MOVQ (Reg DX) (Reg R8) ; (* :260 *)
   MOVQ (Reg R9) (Reg AX) ; (* :263 *)
   MOVQ (Reg R9) (Reg R15) ; (* :264 *)
   SHLQ (Imm 32) (Reg R9) ; (* :265 *)
   SHRQ (Imm 32) (Reg R15) ; (* :266 *)
   ADDQ (Reg AX) (Reg R10) ; (* :267 *)
   ADCQ (Imm 0) (Reg R11) ; (* :268 *)
   SUBQ (Reg R9) (Reg R10) ; (* :269 *)
   SBBQ (Reg R15) (Reg R11) ; (* :270 *)
   SBBQ (Imm 0) (Reg R8) ; (* :271 *)
   MULQ (Cst 0) ; (* :272 *)
   ADDQ (Reg AX) (Reg R8) ; (* :273 *)
   ADCQ (Imm 0) (Reg DX) ; (* :274 *)
   MOVQ (Reg DX) (Reg R9) ; (* :275 *)
   MOVQ (Reg R10) (Reg AX) ; (* :277 *)
   MOVQ (Reg R10) (Reg R15) ; (* :278 *)
   SHLQ (Imm 32) (Reg R10) ; (* :279 *)
   SHRQ (Imm 32) (Reg R15) ; (* :280 *)
   ADDQ (Reg AX) (Reg R11) ; (* :281 *)
   ADCQ (Imm 0) (Reg R8) ; (* :282 *)
   SUBQ (Reg R10) (Reg R11) ; (* :283 *)
   SBBQ (Reg R15) (Reg R8) ; (* :284 *)
   SBBQ (Imm 0) (Reg R9) ; (* :285 *)
   MULQ (Cst 0) ; (* :286 *)
   ADDQ (Reg AX) (Reg R9) ; (* :287 *)
   ADCQ (Imm 0) (Reg DX) ; (* :288 *)
   MOVQ (Reg DX) (Reg R10) ; (* :289 *)
   XORQ (Reg R14) (Reg R14) ; (* :291 *)
   MOVQ (Reg R11) (Reg AX) ; (* :292 *)
   MOVQ (Reg R11) (Reg R15) ; (* :293 *)
   SHLQ (Imm 32) (Reg R11) ; (* :294 *)
   SHRQ (Imm 32) (Reg R15) ; (* :295 *)
   ADDQ (Reg AX) (Reg R8) ; (* :296 *)
   ADCQ (Imm 0) (Reg R9) ; (* :297 *)
   SUBQ (Reg R11) (Reg R8) ; (* :298 *)
   SBBQ (Reg R15) (Reg R9) ; (* :299 *)
   SBBQ (Imm 0) (Reg R10) ; (* :300 *)
   MULQ (Cst 0) ; (* :301 *)
   ADDQ (Reg AX) (Reg R10) ; (* :302 *)
   ADCQ (Imm 0) (Reg DX) ; (* :303 *)
   MOVQ (Reg DX) (Reg R11) ; (* :304 *)
   ADCQ (Reg R12) (Reg R8) ; (* :306 *)
   ADCQ (Reg R13) (Reg R9) ; (* :307 *)
   ADCQ (Reg CX) (Reg R10) ; (* :308 *)
   ADCQ (Reg SI) (Reg R11) ; (* :309 *)
   ADCQ (Imm 0) (Reg R14) ; (* :310 *)
   MOVQ (Reg R8) (Reg R12) ; (* :312 *)
   MOVQ (Reg R9) (Reg R13) ; (* :313 *)
   MOVQ (Reg R10) (Reg CX) ; (* :314 *)
   MOVQ (Reg R11) (Reg R15) ; (* :315 *)
   SUBQ (Imm 18446744073709551615) (Reg R8) ; (* :318 *)
   SBBQ (Cst 0) (Reg R9) ; (* :319 *)
   SBBQ (Imm 18446744073709551615) (Reg R10) ; (* :320 *)
   SBBQ (Cst 1) (Reg R11) ; (* :321 *)
   SBBQ (Imm 0) (Reg R14) ; (* :322 *)
   CMOVQCS (Reg R12) (Reg R8) ; (* :324 *)
   CMOVQCS (Reg R13) (Reg R9) ; (* :325 *)
   CMOVQCS (Reg CX) (Reg R10) ; (* :326 *)
   CMOVQCS (Reg R15) (Reg R11) ; (* :327 *)
   MOVQ (Reg R8) (Mem 2 0) ; (* :329 *)
   MOVQ (Reg R9) (Mem 2 1) ; (* :330 *)
   MOVQ (Reg R10) (Mem 2 2) ; (* :331 *)
   MOVQ (Reg R11) (Mem 2 3) (* :332 *)].
(* sm2p256Mul, sm2p256_amd64.s:337-554 *)
Definition c_sm2p256Mul : list instr := [
   MOVQ (Mem 1 0) (Reg R14) ; (* :342 *)
   MOVQ (Mem 0 0) (Reg AX) ; (* :344 *)
   MULQ (Reg R14) ; (* :345 *)
   MOVQ (Reg AX) (Reg R8) ; (* :346 *)
   MOVQ (Reg DX) (Reg R9) ; (* :347 *)
   MOVQ (Mem 0 1) (Reg AX) ; (* :349 *)
   MULQ (Reg R14) ; (* :350 *)
   ADDQ (Reg AX) (Reg R9) ; (* :351 *)
   ADCQ (Imm 0) (Reg DX) ; (* :352 *)
   MOVQ (Reg DX) (Reg R10) ; (* :353 *)
   MOVQ (Mem 0 2) (Reg AX) ; (* :355 *)
   MULQ (Reg R14) ; (* :356 *)
   ADDQ (Reg AX) (Reg R10) ; (* :357 *)
   ADCQ (Imm 0) (Reg DX) ; (* :358 *)
   MOVQ (Reg DX) (Reg R11) ; (* :359 *)
   MOVQ (Mem 0 3) (Reg AX) ; (* :361 *)
   MULQ (Reg R14) ; (* :362 *)
   ADDQ (Reg AX) (Reg R11) ; (* :363 *)
   ADCQ (Imm 0) (Reg DX) ; (* :364 *)
   MOVQ (Reg DX) (Reg R12) ; (* :365 *)
   XORQ (Reg R13) (Reg R13) ; (* :366 *)
   MOVQ (Reg R8) (Reg AX) ; (* :369 *)
   MOVQ (Reg R8) (Reg R15) ; (* :370 *)
   SHLQ (Imm 32) (Reg R8) ; (* :372 *)
   SHRQ (Imm 32) (Reg R15) ; (* :373 *)
   ADDQ (Reg AX) (Reg R9) ; (* :374 *)
   ADCQ (Imm 0) (Reg R10) ; (* :375 *)
   SUBQ (Reg R8) (Reg R9) ; (* :376 *)
   SBBQ (Reg R15) (Reg R10) ; (* :377 *)
   SBBQ (Imm 0) (Reg R11) ; (* :378 *)
   MULQ (Cst 0) ; (* :379 *)
   ADDQ (Reg AX) (Reg R11) ; (* :380 *)
   ADCQ (Reg DX) (Reg R12) ; (* :381 *)
   ADCQ (Imm 0) (Reg R13) ; (* :382 *)
   XORQ (Reg R8) (Reg R8) ; (* :384 *)
   MOVQ (Mem 1 1) (Reg R14) ; (* :386 *)
   MOVQ (Mem 0 0) (Reg AX) ; (* :388 *)
   MULQ (Reg R14) ; (* :389 *)
   ADDQ (Reg AX) (Reg R9) ; (* :390 *)
   ADCQ (Imm 0) (Reg DX) ; (* :391 *)
   MOVQ (Reg DX) (Reg R15) ; (* :392 *)
   MOVQ (Mem 0 1) (Reg AX) ; (* :394 *)
   MULQ (Reg R14) ; (* :395 *)
   ADDQ (Reg R15) (Reg R10) ; (* :396 *)
   ADCQ (Imm 0) (Reg DX) ; (* :397 *)
   ADDQ (Reg AX) (Reg R10) ; (* :398 *)
   ADCQ (Imm 0) (Reg DX) ; (* :399 *)
   MOVQ (Reg DX) (Reg R15) ; (* :400 *)
   MOVQ (Mem 0 2) (Reg AX) ; (* :402 *)
   MULQ (Reg R14) ; (* :403 *)
   ADDQ (Reg R15) (Reg R11) ; (* :404 *)
   ADCQ (Imm 0) (Reg DX) ; (* :405 *)
   ADDQ (Reg AX) (Reg R11) ; (* :406 *)
   ADCQ (Imm 0) (Reg DX) ; (* :407 *)
   MOVQ (Reg DX) (Reg R15) ; (* :408 *)
   MOVQ (Mem 0 3) (Reg AX) ; (* :410 *)
   MULQ (Reg R14) ; (* :411 *)
   ADDQ (Reg R15) (Reg R12) ; (* :412 *)
   ADCQ (Imm 0) (Reg DX) ; (* :413 *)
   ADDQ (Reg AX) (Reg R12) ; (* :414 *)
   ADCQ (Reg DX) (Reg R13) ; (* :415 *)
   ADCQ (Imm 0) (Reg R8) ; (* :416 *)
   MOVQ (Reg R9) (Reg AX) ; (* :419 *)
   MOVQ (Reg R9) (Reg R15) ; (* :420 *)
   SHLQ (Imm 32) (Reg R9) ; (* :422 *)
   SHRQ (Imm 32) (Reg R15) ; (* :423 *)
   ADDQ (Reg AX) (Reg R10) ; (* :424 *)
   ADCQ (Imm 0) (Reg R11) ; (* :425 *)
   SUBQ (Reg R9) (Reg R10) ; (* :426 *)
   SBBQ (Reg R15) (Reg R11) ; (* :427 *)
   SBBQ (Imm 0) (Reg R12) ; (* :428 *)
   MULQ (Cst 0) ; (* :429 *)
   ADDQ (Reg AX) (Reg R12) ; (* :430 *)
   ADCQ (Reg DX) (Reg R13) ; (* :431 *)
   ADCQ (Imm 0) (Reg R8) ; (* :432 *)
   XORQ (Reg R9) (Reg R9) ; (* :434 *)
   MOVQ (Mem 1 2) (Reg R14) ; (* :436 *)
   MOVQ (Mem 0 0) (Reg AX) ; (* :438 *)
   MULQ (Reg R14) ; (* :439 *)
   ADDQ (Reg AX) (Reg R10) ; (* :440 *)
   ADCQ (Imm 0) (Reg DX) ; (* :441 *)
   MOVQ (Reg DX) (Reg R15) ; (* :442 *)
   MOVQ (Mem 0 1) (Reg AX) ; (* :444 *)
   MULQ (Reg R14) ; (* :445 *)
   ADDQ (Reg R15) (Reg R11) ; (* :446 *)
   ADCQ (Imm 0) (Reg DX) ; (* :447 *)
   ADDQ (Reg AX) (Reg R11) ; (* :448 *)
   ADCQ (Imm 0) (Reg DX) ; (* :449 *)
   MOVQ (Reg DX) (Reg R15) ; (* :450 *)
   MOVQ (Mem 0 2) (Reg AX) ; (* :452 *)
   MULQ (Reg R14) ; (* :453 *)
   ADDQ (Reg R15) (Reg R12) ; (* :454 *)
   ADCQ (Imm 0) (Reg DX) ; (* :455 *)
   ADDQ (Reg AX) (Reg R12) ; (* :456 *)
   ADCQ (Imm 0) (Reg DX) ; (* :457 *)
   MOVQ (Reg DX) (Reg R15) ; (* :458 *)
   MOVQ (Mem 0 3) (Reg AX) ; (* :460 *)
   MULQ (Reg R14) ; (* :461 *)
   ADDQ (Reg R15) (Reg R13) ; (* :462 *)
   ADCQ (Imm 0) (Reg DX) ; (* :463 *)
   ADDQ (Reg AX) (Reg R13) ; (* :464 *)
   ADCQ (Reg DX) (Reg R8) ; (* :465 *)
   ADCQ (Imm 0) (Reg R9) ; (* :466 *)
   MOVQ (Reg R10) (Reg AX) ; (* :469 *)
   MOVQ (Reg R10) (Reg R15) ; (* :470 *)
   SHLQ (Imm 32) (Reg R10) ; (* :472 *)
   SHRQ (Imm 32) (Reg R15) ; (* :473 *)
   ADDQ (Reg AX) (Reg R11) ; (* :474 *)
   ADCQ (Imm 0) (Reg R12) ; (* :475 *)
   SUBQ (Reg R10) (Reg R11) ; (* :476 *)
   SBBQ (Reg R15) (Reg R12) ; (* :477 *)
   SBBQ (Imm 0) (Reg R13) ; (* :478 *)
   MULQ (Cst 0) ; (* :479 *)
   ADDQ (Reg AX) (Reg R13) ; (* :480 *)
   ADCQ (Reg DX) (Reg R8) ; (* :481 *)
   ADCQ (Imm 0) (Reg R9) ; (* :482 *)
   XORQ (Reg R10) (Reg R10) ; (* :484 *)
   MOVQ (Mem 1 3) (Reg R14) ; (* :486 *)
   MOVQ (Mem 0 0) (Reg AX) ; (* :488 *)
   MULQ (Reg R14) ; (* :489 *)
   ADDQ (Reg AX) (Reg R11) ; (* :490 *)
   ADCQ (Imm 0) (Reg DX) ; (* :491 *)
   MOVQ (Reg DX) (Reg R15) ; (* :492 *)
   MOVQ (Mem 0 1) (Reg AX) ; (* :494 *)
   MULQ (Reg R14) ; (* :495 *)
   ADDQ (Reg R15) (Reg R12) ; (* :496 *)
   ADCQ (Imm 0) (Reg DX) ; (* :497 *)
   ADDQ (Reg AX) (Reg R12) ; (* :498 *)
   ADCQ (Imm 0) (Reg DX) ; (* :499 *)
   MOVQ (Reg DX) (Reg R15) ; (* :500 *)
   MOVQ (Mem 0 2) (Reg AX) ; (* :502 *)
   MULQ (Reg R14) ; (* :503 *)
   ADDQ (Reg R15) (Reg R13) ; (* :504 *)
   ADCQ (Imm 0) (Reg DX) ; (* :505 *)
   ADDQ (Reg AX) (Reg R13) ; (* :506 *)
   ADCQ (Imm 0) (Reg DX) ; (* :507 *)
   MOVQ (Reg DX) (Reg R15) ; (* :508 *)
   MOVQ (Mem 0 3) (Reg AX) ; (* :510 *)
   MULQ (Reg R14) ; (* :511 *)
   ADDQ (Reg R15) (Reg R8) ; (* :512 *)
   ADCQ (Imm 0) (Reg DX) ; (* :513 *)
   ADDQ (Reg AX) (Reg R8) ; (* :514 *)
   ADCQ (Reg DX) (Reg R9) ; (* :515 *)
   ADCQ (Imm 0) (Reg R10) ; (* :516 *)
   MOVQ (Reg R11) (Reg AX) ; (* :518 *)
   MOVQ (Reg R11) (Reg R15) ; (* :519 *)
   SHLQ (Imm 32) (Reg R11) ; (* :521 *)
   SHRQ (Imm 32) (Reg R15) ; (* :522 *)
   ADDQ (Reg AX) (Reg R12) ; (* :523 *)
   ADCQ (Imm 0) (Reg R13) ; (* :524 *)
   SUBQ (Reg R11) (Reg R12) ; (* :525 *)
   SBBQ (Reg R15) (Reg R13) ; (* :526 *)
   SBBQ (Imm 0) (Reg R8) ; (* :527 *)
   MULQ (Cst 0) ; (* :528 *)
   ADDQ (Reg AX) (Reg R8) ; (* :529 *)
   ADCQ (Reg DX) (Reg R9) ; (* :530 *)
   ADCQ (Imm 0) (Reg R10) ; (* :531 *)
   MOVQ (Reg R12) (Reg SI) ; (* :533 *)
   MOVQ (Reg R13) (Reg R11) ; (* :534 *)
   MOVQ (Reg R8) (Reg R14) ; (* :535 *)
   MOVQ (Reg R9) (Reg R15) ; (* :536 *)
   SUBQ (Imm 18446744073709551615) (Reg R12) ; (* :538 *)
   SBBQ (Cst 0) (Reg R13) ; (* :539 *)
   SBBQ (Imm 18446744073709551615) (Reg R8) ; (* :540 *)
   SBBQ (Cst 1) (Reg R9) ; (* :541 *)
   SBBQ (Imm 0) (Reg R10) ; (* :542 *)
   CMOVQCS (Reg SI) (Reg R12) ; (* :544 *)
   CMOVQCS (Reg R11) (Reg R13) ; (* :545 *)
   CMOVQCS (Reg R14) (Reg R8) ; (* :546 *)
   CMOVQCS (Reg R15) (Reg R9) ; (* :547 *)
   MOVQ (Reg R12) (Mem 2 0) ; (* :549 *)
   MOVQ (Reg R13) (Mem 2 1) ; (* :550 *)
   MOVQ (Reg R8) (Mem 2 2) ; (* :551 *)
   MOVQ (Reg R9) (Mem 2 3) (* :552 *)].
(* sm2p256FromMont, sm2p256_amd64.s:557-651 *)
Definition c_sm2p256FromMont : list instr := [
   MOVQ (Mem 0 0) (Reg R8) ; (* :561 *)
   MOVQ (Mem 0 1) (Reg R9) ; (* :562 *)
   MOVQ (Mem 0 2) (Reg R10) ; (* :563 *)
   MOVQ (Mem 0 3) (Reg R11) ; (* :564 *)
   XORQ (Reg R12) (Reg R12) ; (* :565 *)
   MOVQ (Reg R8) (Reg AX) ; (* :569 *)
   MOVQ (Reg R8) (Reg R15) ; (* :570 *)
   SHLQ (Imm 32) (Reg R8) ; (* :572 *)
   SHRQ (Imm 32) (Reg R15) ; (* :573 *)
   ADDQ (Reg AX) (Reg R9) ; (* :574 *)
   ADCQ (Imm 0) (Reg R10) ; (* :575 *)
   SUBQ (Reg R8) (Reg R9) ; (* :576 *)
   SBBQ (Reg R15) (Reg R10) ; (* :577 *)
   SBBQ (Imm 0) (Reg R11) ; (* :578 *)
   MULQ (Cst 0) ; (* :579 *)
   ADDQ (Reg AX) (Reg R11) ; (* :580 *)
   ADCQ (Reg DX) (Reg R12) ; (* :581 *)
   XORQ (Reg R13) (Reg R13) ; (* :582 *)
   MOVQ (Reg R9) (Reg AX) ; (* :585 *)
   MOVQ (Reg R9) (Reg R15) ; (* :586 *)
   SHLQ (Imm 32) (Reg R9) ; (* :588 *)
   SHRQ (Imm 32) (Reg R15) ; (* :589 *)
   ADDQ (Reg AX) (Reg R10) ; (* :590 *)
   ADCQ (Imm 0) (Reg R11) ; (* :591 *)
   SUBQ (Reg R9) (Reg R10) ; (* :592 *)
   SBBQ (Reg R15) (Reg R11) ; (* :593 *)
   SBBQ (Imm 0) (Reg R12) ; (* :594 *)
   MULQ (Cst 0) ; (* :595 *)
   ADDQ (Reg AX) (Reg R12) ; (* :596 *)
   ADCQ (Reg DX) (Reg R13) ; (* :597 *)
   XORQ (Reg R8) (Reg R8) ; (* :598 *)
   MOVQ (Reg R10) (Reg AX) ; (* :601 *)
   MOVQ (Reg R10) (Reg R15) ; (* :602 *)
   SHLQ (Imm 32) (Reg R10) ; (* :604 *)
   SHRQ (Imm 32) (Reg R15) ; (* :605 *)
   ADDQ (Reg AX) (Reg R11) ; (* :606 *)
   ADCQ (Imm 0) (Reg R12) ; (* :607 *)
   SUBQ (Reg R10) (Reg R11) ; (* :608 *)
   SBBQ (Reg R15) (Reg R12) ; (* :609 *)
   SBBQ (Imm 0) (Reg R13) ; (* :610 *)
   MULQ (Cst 0) ; (* :611 *)
   ADDQ (Reg AX) (Reg R13) ; (* :612 *)
   ADCQ (Reg DX) (Reg R8) ; (* :613 *)
   XORQ (Reg R9) (Reg R9) ; (* :614 *)
   MOVQ (Reg R11) (Reg AX) ; (* :616 *)
   MOVQ (Reg R11) (Reg R15) ; (* :617 *)
   SHLQ (Imm 32) (Reg R11) ; (* :619 *)
   SHRQ (Imm 32) (Reg R15) ; (* :620 *)
   ADDQ (Reg AX) (Reg R12) ; (* :621 *)
   ADCQ (Imm 0) (Reg R13) ; (* :622 *)
   SUBQ (Reg R11) (Reg R12) ; (* :623 *)
   SBBQ (Reg R15) (Reg R13) ; (* :624 *)
   SBBQ (Imm 0) (Reg R8) ; (* :625 *)
   MULQ (Cst 0) ; (* :626 *)
   ADDQ (Reg AX) (Reg R8) ; (* :627 *)
   ADCQ (Reg DX) (Reg R9) ; (* :628 *)
   MOVQ (Reg R12) (Reg SI) ; (* :631 *)
   MOVQ (Reg R13) (Reg R11) ; (* :632 *)
   MOVQ (Reg R8) (Reg R14) ; (* :633 *)
   MOVQ (Reg R9) (Reg R15) ; (* :634 *)
   SUBQ (Imm 18446744073709551615) (Reg R12) ; (* :636 *)
   SBBQ (Cst 0) (Reg R13) ; (* :637 *)
   SBBQ (Imm 18446744073709551615) (Reg R8) ; (* :638 *)
   SBBQ (Cst 1) (Reg R9) ; (* :639 *)
   CMOVQCS (Reg SI) (Reg R12) ; (* :641 *)
   CMOVQCS (Reg R11) (Reg R13) ; (* :642 *)
   CMOVQCS (Reg R14) (Reg R8) ; (* :643 *)
   CMOVQCS (Reg R15) (Reg R9) ; (* :644 *)
   MOVQ (Reg R12) (Mem 2 0) ; (* :646 *)
   MOVQ (Reg R13) (Mem 2 1) ; (* :647 *)
   MOVQ (Reg R8) (Mem 2 2) ; (* :648 *)
   MOVQ (Reg R9) (Mem 2 3) (* :649 *)].
(* sm2p256OrdMul, sm2p256_amd64.s:792-1076 *)
Definition c_sm2p256OrdMul : list instr := [
   MOVQ (Mem 1 0) (Reg R14) ; (* :797 *)
   MOVQ (Mem 0 0) (Reg AX) ; (* :799 *)
   MULQ (Reg R14) ; (* :800 *)
   MOVQ (Reg AX) (Reg R8) ; (* :801 *)
   MOVQ (Reg DX) (Reg R9) ; (* :802 *)
   MOVQ (Mem 0 1) (Reg AX) ; (* :804 *)
   MULQ (Reg R14) ; (* :805 *)
   ADDQ (Reg AX) (Reg R9) ; (* :806 *)
   ADCQ (Imm 0) (Reg DX) ; (* :807 *)
   MOVQ (Reg DX) (Reg R10) ; (* :808 *)
   MOVQ (Mem 0 2) (Reg AX) ; (* :810 *)
   MULQ (Reg R14) ; (* :811 *)
   ADDQ (Reg AX) (Reg R10) ; (* :812 *)
   ADCQ (Imm 0) (Reg DX) ; (* :813 *)
   MOVQ (Reg DX) (Reg R11) ; (* :814 *)
   MOVQ (Mem 0 3) (Reg AX) ; (* :816 *)
   MULQ (Reg R14) ; (* :817 *)
   ADDQ (Reg AX) (Reg R11) ; (* :818 *)
   ADCQ (Imm 0) (Reg DX) ; (* :819 *)
   MOVQ (Reg DX) (Reg R12) ; (* :820 *)
   XORQ (Reg R13) (Reg R13) ; (* :821 *)
   MOVQ (Reg R8) (Reg AX) ; (* :823 *)
   MULQ (Cst 2) ; (* :824 *)
   MOVQ (Reg AX) (Reg R14) ; (* :825 *)
   MOVQ (Cst 3) (Reg AX) ; (* :827 *)
   MULQ (Reg R14) ; (* :828 *)
   ADDQ (Reg AX) (Reg R8) ; (* :829 *)
   ADCQ (Imm 0) (Reg DX) ; (* :830 *)
   MOVQ (Reg DX) (Reg R15) ; (* :831 *)
   MOVQ (Cst 4) (Reg AX) ; (* :833 *)
   MULQ (Reg R14) ; (* :834 *)
   ADDQ (Reg R15) (Reg R9) ; (* :835 *)
   ADCQ (Imm 0) (Reg DX) ; (* :836 *)
   ADDQ (Reg AX) (Reg R9) ; (* :837 *)
   ADCQ (Imm 0) (Reg DX) ; (* :838 *)
   MOVQ (Reg DX) (Reg R15) ; (* :839 *)
   MOVQ (Cst 5) (Reg AX) ; (* :841 *)
   MULQ (Reg R14) ; (* :842 *)
   ADDQ (Reg R15) (Reg R10) ; (* :843 *)
   ADCQ (Imm 0) (Reg DX) ; (* :844 *)
   ADDQ (Reg AX) (Reg R10) ; (* :845 *)
   ADCQ (Imm 0) (Reg DX) ; (* :846 *)
   MOVQ (Reg DX) (Reg R15) ; (* :847 *)
   MOVQ (Cst 6) (Reg AX) ; (* :849 *)
   MULQ (Reg R14) ; (* :850 *)
   ADDQ (Reg R15) (Reg R11) ; (* :851 *)
   ADCQ (Imm 0) (Reg DX) ; (* :852 *)
   ADDQ (Reg AX) (Reg R11) ; (* :853 *)
   ADCQ (Reg DX) (Reg R12) ; (* :854 *)
   ADCQ (Imm 0) (Reg R13) ; (* :855 *)
   MOVQ (Mem 1 1) (Reg R14) ; (* :857 *)
   MOVQ (Mem 0 0) (Reg AX) ; (* :859 *)
   MULQ (Reg R14) ; (* :860 *)
   ADDQ (Reg AX) (Reg R9) ; (* :861 *)
   ADCQ (Imm 0) (Reg DX) ; (* :862 *)
   MOVQ (Reg DX) (Reg R15) ; (* :863 *)
   MOVQ (Mem 0 1) (Reg AX) ; (* :865 *)
   MULQ (Reg R14) ; (* :866 *)
   ADDQ (Reg R15) (Reg R10) ; (* :867 *)
   ADCQ (Imm 0) (Reg DX) ; (* :868 *)
   ADDQ (Reg AX) (Reg R10) ; (* :869 *)
   ADCQ (Imm 0) (Reg DX) ; (* :870 *)
   MOVQ (Reg DX) (Reg R15) ; (* :871 *)
   MOVQ (Mem 0 2) (Reg AX) ; (* :873 *)
   MULQ (Reg R14) ; (* :874 *)
   ADDQ (Reg R15) (Reg R11) ; (* :875 *)
   ADCQ (Imm 0) (Reg DX) ; (* :876 *)
   ADDQ (Reg AX) (Reg R11) ; (* :877 *)
   ADCQ (Imm 0) (Reg DX) ; (* :878 *)
   MOVQ (Reg DX) (Reg R15) ; (* :879 *)
   MOVQ (Mem 0 3) (Reg AX) ; (* :881 *)
   MULQ (Reg R14) ; (* :882 *)
   ADDQ (Reg R15) (Reg R12) ; (* :883 *)
   ADCQ (Imm 0) (Reg DX) ; (* :884 *)
   ADDQ (Reg AX) (Reg R12) ; (* :885 *)
   ADCQ (Reg DX) (Reg R13) ; (* :886 *)
   ADCQ (Imm 0) (Reg R8) ; (* :887 *)
   MOVQ (Reg R9) (Reg AX) ; (* :889 *)
   MULQ (Cst 2) ; (* :890 *)
   MOVQ (Reg AX) (Reg R14) ; (* :891 *)
   MOVQ (Cst 3) (Reg AX) ; (* :893 *)
   MULQ (Reg R14) ; (* :894 *)
   ADDQ (Reg AX) (Reg R9) ; (* :895 *)
   ADCQ (Imm 0) (Reg DX) ; (* :896 *)
   MOVQ (Reg DX) (Reg R15) ; (* :897 *)
   MOVQ (Cst 4) (Reg AX) ; (* :899 *)
   MULQ (Reg R14) ; (* :900 *)
   ADDQ (Reg R15) (Reg R10) ; (* :901 *)
   ADCQ (Imm 0) (Reg DX) ; (* :902 *)
   ADDQ (Reg AX) (Reg R10) ; (* :903 *)
   ADCQ (Imm 0) (Reg DX) ; (* :904 *)
   MOVQ (Reg DX) (Reg R15) ; (* :905 *)
   MOVQ (Cst 5) (Reg AX) ; (* :907 *)
   MULQ (Reg R14) ; (* :908 *)
   ADDQ (Reg R15) (Reg R11) ; (* :909 *)
   ADCQ (Imm 0) (Reg DX) ; (* :910 *)
   ADDQ (Reg AX) (Reg R11) ; (* :911 *)
   ADCQ (Imm 0) (Reg DX) ; (* :912 *)
   MOVQ (Reg DX) (Reg R15) ; (* :913 *)
   MOVQ (Cst 6) (Reg AX) ; (* :915 *)
   MULQ (Reg R14) ; (* :916 *)
   ADDQ (Reg R15) (Reg R12) ; (* :917 *)
   ADCQ (Imm 0) (Reg DX) ; (* :918 *)
   ADDQ (Reg AX) (Reg R12) ; (* :919 *)
   ADCQ (Reg DX) (Reg R13) ; (* :920 *)
   ADCQ (Imm 0) (Reg R8) ; (* :921 *)
   MOVQ (Mem 1 2) (Reg R14) ; (* :923 *)
   MOVQ (Mem 0 0) (Reg AX) ; (* :925 *)
   MULQ (Reg R14) ; (* :926 *)
   ADDQ (Reg AX) (Reg R10) ; (* :927 *)
   ADCQ (Imm 0) (Reg DX) ; (* :928 *)
   MOVQ (Reg DX) (Reg R15) ; (* :929 *)
   MOVQ (Mem 0 1) (Reg AX) ; (* :931 *)
   MULQ (Reg R14) ; (* :932 *)
   ADDQ (Reg R15) (Reg R11) ; (* :933 *)
   ADCQ (Imm 0) (Reg DX) ; (* :934 *)
   ADDQ (Reg AX) (Reg R11) ; (* :935 *)
   ADCQ (Imm 0) (Reg DX) ; (* :936 *)
   MOVQ (Reg DX) (Reg R15) ; (* :937 *)
   MOVQ (Mem 0 2) (Reg AX) ; (* :939 *)
   MULQ (Reg R14) ; (* :940 *)
   ADDQ (Reg R15) (Reg R12) ; (* :941 *)
   ADCQ (Imm 0) (Reg DX) ; (* :942 *)
   ADDQ (Reg AX) (Reg R12) ; (* :943 *)
   ADCQ (Imm 0) (Reg DX) ; (* :944 *)
   MOVQ (Reg DX) (Reg R15) ; (* :945 *)
   MOVQ (Mem 0 3) (Reg AX) ; (* :947 *)
   MULQ (Reg R14) ; (* :948 *)
   ADDQ (Reg R15) (Reg R13) ; (* :949 *)
   ADCQ (Imm 0) (Reg DX) ; (* :950 *)
   ADDQ (Reg AX) (Reg R13) ; (* :951 *)
   ADCQ (Reg DX) (Reg R8) ; (* :952 *)
   ADCQ (Imm 0) (Reg R9) ; (* :953 *)
   MOVQ (Reg R10) (Reg AX) ; (* :955 *)
   MULQ (Cst 2) ; (* :956 *)
   MOVQ (Reg AX) (Reg R14) ; (* :957 *)
   MOVQ (Cst 3) (Reg AX) ; (* :959 *)
   MULQ (Reg R14) ; (* :960 *)
   ADDQ (Reg AX) (Reg R10) ; (* :961 *)
   ADCQ (Imm 0) (Reg DX) ; (* :962 *)
   MOVQ (Reg DX) (Reg R15) ; (* :963 *)
   MOVQ (Cst 4) (Reg AX) ; (* :965 *)
   MULQ (Reg R14) ; (* :966 *)
   ADDQ (Reg R15) (Reg R11) ; (* :967 *)
   ADCQ (Imm 0) (Reg DX) ; (* :968 *)
   ADDQ (Reg AX) (Reg R11) ; (* :969 *)
   ADCQ (Imm 0) (Reg DX) ; (* :970 *)
   MOVQ (Reg DX) (Reg R15) ; (* :971 *)
   MOVQ (Cst 5) (Reg AX) ; (* :973 *)
   MULQ (Reg R14) ; (* :974 *)
   ADDQ (Reg R15) (Reg R12) ; (* :975 *)
   ADCQ (Imm 0) (Reg DX) ; (* :976 *)
   ADDQ (Reg AX) (Reg R12) ; (* :977 *)
   ADCQ (Imm 0) (Reg DX) ; (* :978 *)
   MOVQ (Reg DX) (Reg R15) ; (* :979 *)
   MOVQ (Cst 6) (Reg AX) ; (* :981 *)
   MULQ (Reg R14) ; (* :982 *)
   ADDQ (Reg R15) (Reg R13) ; (* :983 *)
   ADCQ (Imm 0) (Reg DX) ; (* :984 *)
   ADDQ (Reg AX) (Reg R13) ; (* :985 *)
   ADCQ (Reg DX) (Reg R8) ; (* :986 *)
   ADCQ (Imm 0) (Reg R9) ; (* :987 *)
   MOVQ (Mem 1 3) (Reg R14) ; (* :989 *)
   MOVQ (Mem 0 0) (Reg AX) ; (* :991 *)
   MULQ (Reg R14) ; (* :992 *)
   ADDQ (Reg AX) (Reg R11) ; (* :993 *)
   ADCQ (Imm 0) (Reg DX) ; (* :994 *)
   MOVQ (Reg DX) (Reg R15) ; (* :995 *)
   MOVQ (Mem 0 1) (Reg AX) ; (* :997 *)
   MULQ (Reg R14) ; (* :998 *)
   ADDQ (Reg R15) (Reg R12) ; (* :999 *)
   ADCQ (Imm 0) (Reg DX) ; (* :1000 *)
   ADDQ (Reg AX) (Reg R12) ; (* :1001 *)
   ADCQ (Imm 0) (Reg DX) ; (* :1002 *)
   MOVQ (Reg DX) (Reg R15) ; (* :1003 *)
   MOVQ (Mem 0 2) (Reg AX) ; (* :1005 *)
   MULQ (Reg R14) ; (* :1006 *)
   ADDQ (Reg R15) (Reg R13) ; (* :1007 *)
   ADCQ (Imm 0) (Reg DX) ; (* :1008 *)
   ADDQ (Reg AX) (Reg R13) ; (* :1009 *)
   ADCQ (Imm 0) (Reg DX) ; (* :1010 *)
   MOVQ (Reg DX) (Reg R15) ; (* :1011 *)
   MOVQ (Mem 0 3) (Reg AX) ; (* :1013 *)
   MULQ (Reg R14) ; (* :1014 *)
   ADDQ (Reg R15) (Reg R8) ; (* :1015 *)
   ADCQ (Imm 0) (Reg DX) ; (* :1016 *)
   ADDQ (Reg AX) (Reg R8) ; (* :1017 *)
   ADCQ (Reg DX) (Reg R9) ; (* :1018 *)
   ADCQ (Imm 0) (Reg R10) ; (* :1019 *)
   MOVQ (Reg R11) (Reg AX) ; (* :1021 *)
   MULQ (Cst 2) ; (* :1022 *)
   MOVQ (Reg AX) (Reg R14) ; (* :1023 *)
   MOVQ (Cst 3) (Reg AX) ; (* :1025 *)
   MULQ (Reg R14) ; (* :1026 *)
   ADDQ (Reg AX) (Reg R11) ; (* :1027 *)
   ADCQ (Imm 0) (Reg DX) ; (* :1028 *)
   MOVQ (Reg DX) (Reg R15) ; (* :1029 *)
   MOVQ (Cst 4) (Reg AX) ; (* :1031 *)
   MULQ (Reg R14) ; (* :1032 *)
   ADDQ (Reg R15) (Reg R12) ; (* :1033 *)
   ADCQ (Imm 0) (Reg DX) ; (* :1034 *)
   ADDQ (Reg AX) (Reg R12) ; (* :1035 *)
   ADCQ (Imm 0) (Reg DX) ; (* :1036 *)
   MOVQ (Reg DX) (Reg R15) ; (* :1037 *)
   MOVQ (Cst 5) (Reg AX) ; (* :1039 *)
   MULQ (Reg R14) ; (* :1040 *)
   ADDQ (Reg R15) (Reg R13) ; (* :1041 *)
   ADCQ (Imm 0) (Reg DX) ; (* :1042 *)
   ADDQ (Reg AX) (Reg R13) ; (* :1043 *)
   ADCQ (Imm 0) (Reg DX) ; (* :1044 *)
   MOVQ (Reg DX) (Reg R15) ; (* :1045 *)
   MOVQ (Cst 6) (Reg AX) ; (* :1047 *)
   MULQ (Reg R14) ; (* :1048 *)
   ADDQ (Reg R15) (Reg R8) ; (* :1049 *)
   ADCQ (Imm 0) (Reg DX) ; (* :1050 *)
   ADDQ (Reg AX) (Reg R8) ; (* :1051 *)
   ADCQ (Reg DX) (Reg R9) ; (* :1052 *)
   ADCQ (Imm 0) (Reg R10) ; (* :1053 *)
   MOVQ (Reg R12) (Reg SI) ; (* :1055 *)
   MOVQ (Reg R13) (Reg R11) ; (* :1056 *)
   MOVQ (Reg R8) (Reg R14) ; (* :1057 *)
   MOVQ (Reg R9) (Reg R15) ; (* :1058 *)
   SUBQ (Cst 3) (Reg R12) ; (* :1060 *)
   SBBQ (Cst 4) (Reg R13) ; (* :1061 *)
   SBBQ (Cst 5) (Reg R8) ; (* :1062 *)
   SBBQ (Cst 6) (Reg R9) ; (* :1063 *)
   SBBQ (Imm 0) (Reg R10) ; (* :1064 *)
   CMOVQCS (Reg SI) (Reg R12) ; (* :1066 *)
   CMOVQCS (Reg R11) (Reg R13) ; (* :1067 *)
   CMOVQCS (Reg R14) (Reg R8) ; (* :1068 *)
   CMOVQCS (Reg R15) (Reg R9) ; (* :1069 *)
   MOVQ (Reg R12) (Mem 2 0) ; (* :1071 *)
   MOVQ (Reg R13) (Mem 2 1) ; (* :1072 *)
   MOVQ (Reg R8) (Mem 2 2) ; (* :1073 *)
   MOVQ (Reg R9) (Mem 2 3) (* :1074 *)].
(* sm2p256OrdSqr, sm2p256_amd64.s:1079-1330 *)
Definition c_sm2p256OrdSqr : list instr := [
   MOVQ (Mem 0 0) (Reg R14) ; (* :1087 *)
   MOVQ (Mem 0 1) (Reg AX) ; (* :1089 *)
   MULQ (Reg R14) ; (* :1090 *)
   MOVQ (Reg AX) (Reg R9) ; (* :1091 *)
   MOVQ (Reg DX) (Reg R10) ; (* :1092 *)
   MOVQ (Mem 0 2) (Reg AX) ; (* :1094 *)
   MULQ (Reg R14) ; (* :1095 *)
   ADDQ (Reg AX) (Reg R10) ; (* :1096 *)
   ADCQ (Imm 0) (Reg DX) ; (* :1097 *)
   MOVQ (Reg DX) (Reg R11) ; (* :1098 *)
   MOVQ (Mem 0 3) (Reg AX) ; (* :1100 *)
   MULQ (Reg R14) ; (* :1101 *)
   ADDQ (Reg AX) (Reg R11) ; (* :1102 *)
   ADCQ (Imm 0) (Reg DX) ; (* :1103 *)
   MOVQ (Reg DX) (Reg R12) ; (* :1104 *)
   MOVQ (Mem 0 1) (Reg R14) ; (* :1106 *)
   MOVQ (Mem 0 2) (Reg AX) ; (* :1108 *)
   MULQ (Reg R14) ; (* :1109 *)
   ADDQ (Reg AX) (Reg R11) ; (* :1110 *)
   ADCQ (Imm 0) (Reg DX) ; (* :1111 *)
   MOVQ (Reg DX) (Reg R15) ; (* :1112 *)
   MOVQ (Mem 0 3) (Reg AX) ; (* :1114 *)
   MULQ (Reg R14) ; (* :1115 *)
   ADDQ (Reg R15) (Reg R12) ; (* :1116 *)
   ADCQ (Imm 0) (Reg DX) ; (* :1117 *)
   ADDQ (Reg AX) (Reg R12) ; (* :1118 *)
   ADCQ (Imm 0) (Reg DX) ; (* :1119 *)
   MOVQ (Reg DX) (Reg R13) ; (* :1120 *)
   MOVQ (Mem 0 2) (Reg R14) ; (* :1122 *)
   MOVQ (Mem 0 3) (Reg AX) ; (* :1124 *)
   MULQ (Reg R14) ; (* :1125 *)
   ADDQ (Reg AX) (Reg R13) ; (* :1126 *)
   ADCQ (Imm 0) (Reg DX) ; (* :1127 *)
   MOVQ (Reg DX) (Reg CX) ; (* :1128 *)
   XORQ (Reg R15) (Reg R15) ; (* :1129 *)
   ADDQ (Reg R9) (Reg R9) ; (* :1131 *)
   ADCQ (Reg R10) (Reg R10) ; (* :1132 *)
   ADCQ (Reg R11) (Reg R11) ; (* :1133 *)
   ADCQ (Reg R12) (Reg R12) ; (* :1134 *)
   ADCQ (Reg R13) (Reg R13) ; (* :1135 *)
   ADCQ (Reg CX) (Reg CX) ; (* :1136 *)
   ADCQ (Imm 0) (Reg R15) ; (* :1137 *)
   MOVQ (Mem 0 0) (Reg AX) ; (* :1139 *)
   MULQ (Reg AX) ; (* :1140 *)
   MOVQ (Reg AX) (Reg R8) ; (* :1141 *)
   MOVQ (Reg DX) (Reg R14) ; (* :1142 *)
   MOVQ (Mem 0 1) (Reg AX) ; (* :1144 *)
   MULQ (Reg AX) ; (* :1145 *)
   ADDQ (Reg R14) (Reg R9) ; (* :1146 *)
   ADCQ (Reg AX) (Reg R10) ; (* :1147 *)
   ADCQ (Imm 0) (Reg DX) ; (* :1148 *)
   MOVQ (Reg DX) (Reg R14) ; (* :1149 *)
   MOVQ (Mem 0 2) (Reg AX) ; (* :1151 *)
   MULQ (Reg AX) ; (* :1152 *)
   ADDQ (Reg R14) (Reg R11) ; (* :1153 *)
   ADCQ (Reg AX) (Reg R12) ; (* :1154 *)
   ADCQ (Imm 0) (Reg DX) ; (* :1155 *)
   MOVQ (Reg DX) (Reg R14) ; (* :1156 *)
   MOVQ (Mem 0 3) (Reg AX) ; (* :1158 *)
   MULQ (Reg AX) ; (* :1159 *)
   ADDQ (Reg R14) (Reg R13) ; (* :1160 *)
   ADCQ (Reg AX) (Reg CX) ; (* :1161 *)
   ADCQ (Reg DX) (Reg R15) ; (* :1162 *)
   MOVQ (Reg R15) (Reg SI) ; (* :1163 *)
   MOVQ (Reg R8) (Reg AX) ; (* :1165 *)
   MULQ (Cst 2) ; (* :1166 *)
   MOVQ (Reg AX) (Reg R14) ; (* :1167 *)
   MOVQ (Cst 3) (Reg AX) ; (* :1169 *)
   MULQ (Reg R14) ; (* :1170 *)
   ADDQ (Reg AX) (Reg R8) ; (* :1171 *)
   ADCQ (Imm 0) (Reg DX) ; (* :1172 *)
   MOVQ (Reg DX) (Reg R15) ; (* :1173 *)
   MOVQ (Cst 4) (Reg AX) ; (* :1175 *)
   MULQ (Reg R14) ; (* :1176 *)
   ADDQ (Reg R15) (Reg R9) ; (* :1177 *)
   ADCQ (Imm 0) (Reg DX) ; (* :1178 *)
   ADDQ (Reg AX) (Reg R9) ; (* :1179 *)
   MOVQ (Reg R14) (Reg R15) ; (* :1181 *)
   ADCQ (Reg DX) (Reg R10) ; (* :1182 *)
   ADCQ (Imm 0) (Reg R15) ; (* :1183 *)
   SUBQ (Reg R14) (Reg R10) ; (* :1184 *)
   SBBQ (Imm 0) (Reg R15) ; (* :1185 *)
   MOVQ (Reg R14) (Reg AX) ; (* :1187 *)
   MOVQ (Reg R14) (Reg DX) ; (* :1188 *)
   MOVQ (Reg R14) (Reg R8) ; (* :1189 *)
   SHLQ (Imm 32) (Reg AX) ; (* :1190 *)
   SHRQ (Imm 32) (Reg DX) ; (* :1191 *)
   SUBQ (Reg AX) (Reg R11) ; (* :1195 *)
   SBBQ (Reg DX) (Reg R8) ; (* :1196 *)
   MOVQ (Reg R9) (Reg AX) ; (* :1198 *)
   MULQ (Cst 2) ; (* :1199 *)
   MOVQ (Reg AX) (Reg R14) ; (* :1200 *)
   MOVQ (Cst 3) (Reg AX) ; (* :1202 *)
   MULQ (Reg R14) ; (* :1203 *)
   ADDQ (Reg AX) (Reg R9) ; (* :1204 *)
   ADCQ (Imm 0) (Reg DX) ; (* :1205 *)
   MOVQ (Reg DX) (Reg R15) ; (* :1206 *)
   MOVQ (Cst 4) (Reg AX) ; (* :1208 *)
   MULQ (Reg R14) ; (* :1209 *)
   ADDQ (Reg R15) (Reg R10) ; (* :1210 *)
   ADCQ (Imm 0) (Reg DX) ; (* :1211 *)
   ADDQ (Reg AX) (Reg R10) ; (* :1212 *)
   MOVQ (Reg R14) (Reg R15) ; (* :1214 *)
   ADCQ (Reg DX) (Reg R11) ; (* :1215 *)
   ADCQ (Imm 0) (Reg R15) ; (* :1216 *)
   SUBQ (Reg R14) (Reg R11) ; (* :1217 *)
   SBBQ (Imm 0) (Reg R15) ; (* :1218 *)
   MOVQ (Reg R14) (Reg AX) ; (* :1220 *)
   MOVQ (Reg R14) (Reg DX) ; (* :1221 *)
   MOVQ (Reg R14) (Reg R9) ; (* :1222 *)
   SHLQ (Imm 32) (Reg AX) ; (* :1223 *)
   SHRQ (Imm 32) (Reg DX) ; (* :1224 *)
   SUBQ (Reg AX) (Reg R8) ; (* :1228 *)
   SBBQ (Reg DX) (Reg R9) ; (* :1229 *)
   MOVQ (Reg R10) (Reg AX) ; (* :1231 *)
   MULQ (Cst 2) ; (* :1232 *)
   MOVQ (Reg AX) (Reg R14) ; (* :1233 *)
   MOVQ (Cst 3) (Reg AX) ; (* :1235 *)
   MULQ (Reg R14) ; (* :1236 *)
   ADDQ (Reg AX) (Reg R10) ; (* :1237 *)
   ADCQ (Imm 0) (Reg DX) ; (* :1238 *)
   MOVQ (Reg DX) (Reg R15) ; (* :1239 *)
   MOVQ (Cst 4) (Reg AX) ; (* :1241 *)
   MULQ (Reg R14) ; (* :1242 *)
   ADDQ (Reg R15) (Reg R11) ; (* :1243 *)
   ADCQ (Imm 0) (Reg DX) ; (* :1244 *)
   ADDQ (Reg AX) (Reg R11) ; (* :1245 *)
   MOVQ (Reg R14) (Reg R15) ; (* :1247 *)
   ADCQ (Reg DX) (Reg R8) ; (* :1248 *)
   ADCQ (Imm 0) (Reg R15) ; (* :1249 *)
   SUBQ (Reg R14) (Reg R8) ; (* :1250 *)
   SBBQ (Imm 0) (Reg R15) ; (* :1251 *)
   MOVQ (Reg R14) (Reg AX) ; (* :1253 *)
   MOVQ (Reg R14) (Reg DX) ; (* :1254 *)
   MOVQ (Reg R14) (Reg R10) ; (* :1255 *)
   SHLQ (Imm 32) (Reg AX) ; (* :1256 *)
   SHRQ (Imm 32) (Reg DX) ; (* :1257 *)
   SUBQ (Reg AX) (Reg R9) ; (* :1261 *)
   SBBQ (Reg DX) (Reg R10) ; (* :1262 *)
   MOVQ (Reg R11) (Reg AX) ; (* :1264 *)
   MULQ (Cst 2) ; (* :1265 *)
   MOVQ (Reg AX) (Reg R14) ; (* :1266 *)
   MOVQ (Cst 3) (Reg AX) ; (* :1268 *)
   MULQ (Reg R14) ; (* :1269 *)
   ADDQ (Reg AX) (Reg R11) ; (* :1270 *)
   ADCQ (Imm 0) (Reg DX) ; (* :1271 *)
   MOVQ (Reg DX) (Reg R15) ; (* :1272 *)
   MOVQ (Cst 4) (Reg AX) ; (* :1274 *)
   MULQ (Reg R14) ; (* :1275 *)
   ADDQ (Reg R15) (Reg R8) ; (* :1276 *)
   ADCQ (Imm 0) (Reg DX) ; (* :1277 *)
   ADDQ (Reg AX) (Reg R8) ; (* :1278 *)
   ADCQ (Imm 0) (Reg DX) ; (* :1279 *)
   MOVQ (Reg DX) (Reg R15) ; (* :1280 *)
   MOVQ (Reg R14) (Reg R15) ; (* :1282 *)
   ADCQ (Reg DX) (Reg R9) ; (* :1283 *)
   ADCQ (Imm 0) (Reg R15) ; (* :1284 *)
   SUBQ (Reg R14) (Reg R9) ; (* :1285 *)
   SBBQ (Imm 0) (Reg R15) ; (* :1286 *)
   MOVQ (Reg R14) (Reg AX) ; (* :1288 *)
   MOVQ (Reg R14) (Reg DX) ; (* :1289 *)
   MOVQ (Reg R14) (Reg R11) ; (* :1290 *)
   SHLQ (Imm 32) (Reg AX) ; (* :1291 *)
   SHRQ (Imm 32) (Reg DX) ; (* :1292 *)
   SUBQ (Reg AX) (Reg R10) ; (* :1296 *)
   SBBQ (Reg DX) (Reg R11) ; (* :1297 *)
   XORQ (Reg R14) (Reg R14) ; (* :1298 *)
   ADCQ (Reg R12) (Reg R8) ; (* :1300 *)
   ADCQ (Reg R13) (Reg R9) ; (* :1301 *)
   ADCQ (Reg CX) (Reg R10) ; (* :1302 *)
   ADCQ (Reg SI) (Reg R11) ; (* :1303 *)
   ADCQ (Imm 0) (Reg R14) ; (* :1304 *)
   MOVQ (Reg R8) (Reg R12) ; (* :1306 *)
   MOVQ (Reg R9) (Reg R13) ; (* :1307 *)
   MOVQ (Reg R10) (Reg CX) ; (* :1308 *)
   MOVQ (Reg R11) (Reg R15) ; (* :1309 *)
   SUBQ (Cst 3) (Reg R8) ; (* :1311 *)
   SBBQ (Cst 4) (Reg R9) ; (* :1312 *)
   SBBQ (Cst 5) (Reg R10) ; (* :1313 *)
   SBBQ (Cst 6) (Reg R11) ; (* :1314 *)
   SBBQ (Imm 0) (Reg R14) ; (* :1315 *)
   CMOVQCS (Reg R12) (Reg R8) ; (* :1317 *)
   CMOVQCS (Reg R13) (Reg R9) ; (* :1318 *)
   CMOVQCS (Reg CX) (Reg R10) ; (* :1319 *)
   CMOVQCS (Reg R15) (Reg R11) ; (* :1320 *)
   MOVQ (Reg R8) (Mem 2 0) ; (* :1322 *)
   MOVQ (Reg R9) (Mem 2 1) ; (* :1323 *)
   MOVQ (Reg R10) (Mem 2 2) ; (* :1324 *)
   MOVQ (Reg R11) (Mem 2 3) (* :1325 *)].
(* p256GmSubInternal, sm2p256_amd64.s:1361-1385 *)
Definition c_p256GmSubInternal : list instr := [
   XORQ (Reg AX) (Reg AX) ; (* :1362 *)
   SUBQ (Reg R14) (Reg R10) ; (* :1363 *)
   SBBQ (Reg R15) (Reg R11) ; (* :1364 *)
   SBBQ (Reg DI) (Reg R12) ; (* :1365 *)
   SBBQ (Reg SI) (Reg R13) ; (* :1366 *)
   SBBQ (Imm 0) (Reg AX) ; (* :1367 *)
   MOVQ (Reg R10) (Reg BX) ; (* :1369 *)
   MOVQ (Reg R11) (Reg CX) ; (* :1370 *)
   MOVQ (Reg R12) (Reg R8) ; (* :1371 *)
   MOVQ (Reg R13) (Reg R9) ; (* :1372 *)
   ADDQ (Imm 18446744073709551615) (Reg R10) ; (* :1374 *)
   ADCQ (Cst 0) (Reg R11) ; (* :1375 *)
   ADCQ (Imm 18446744073709551615) (Reg R12) ; (* :1376 *)
   ADCQ (Cst 1) (Reg R13) ; (* :1377 *)
   ANDQ (Imm 1) (Reg AX) ; (* :1378 *)
   CMOVQEQ (Reg BX) (Reg R10) ; (* :1380 *)
   CMOVQEQ (Reg CX) (Reg R11) ; (* :1381 *)
   CMOVQEQ (Reg R8) (Reg R12) ; (* :1382 *)
   CMOVQEQ (Reg R9) (Reg R13) (* :1383 *)].
(* p256GmMulInternal, sm2p256_amd64.s:1387-1637 *)
Definition c_p256GmMulInternal : list instr := [
   MOVQ (Reg R10) (Reg AX) ; (* :1388 *)
   MULQ (Reg R14) ; (* :1389 *)
   MOVQ (Reg AX) (Reg BX) ; (* :1390 *)
   MOVQ (Reg DX) (Reg CX) ; (* :1391 *)
   MOVQ (Reg R10) (Reg AX) ; (* :1393 *)
   MULQ (Reg R15) ; (* :1394 *)
   ADDQ (Reg AX) (Reg CX) ; (* :1395 *)
   ADCQ (Imm 0) (Reg DX) ; (* :1396 *)
   MOVQ (Reg DX) (Reg R8) ; (* :1397 *)
   MOVQ (Reg R10) (Reg AX) ; (* :1399 *)
   MULQ (Reg DI) ; (* :1400 *)
   ADDQ (Reg AX) (Reg R8) ; (* :1401 *)
   ADCQ (Imm 0) (Reg DX) ; (* :1402 *)
   MOVQ (Reg DX) (Reg R9) ; (* :1403 *)
   MOVQ (Reg R10) (Reg AX) ; (* :1405 *)
   MULQ (Reg SI) ; (* :1406 *)
   ADDQ (Reg AX) (Reg R9) ; (* :1407 *)
   ADCQ (Imm 0) (Reg DX) ; (* :1408 *)
   MOVQ (Reg DX) (Reg R10) ; (* :1409 *)
   MOVQ (Reg R11) (Reg AX) ; (* :1411 *)
   MULQ (Reg R14) ; (* :1412 *)
   ADDQ (Reg AX) (Reg CX) ; (* :1413 *)
   ADCQ (Imm 0) (Reg DX) ; (* :1414 *)
   MOVQ (Reg DX) (Reg BP) ; (* :1415 *)
   MOVQ (Reg R11) (Reg AX) ; (* :1417 *)
   MULQ (Reg R15) ; (* :1418 *)
   ADDQ (Reg BP) (Reg R8) ; (* :1419 *)
   ADCQ (Imm 0) (Reg DX) ; (* :1420 *)
   ADDQ (Reg AX) (Reg R8) ; (* :1421 *)
   ADCQ (Imm 0) (Reg DX) ; (* :1422 *)
   MOVQ (Reg DX) (Reg BP) ; (* :1423 *)
   MOVQ (Reg R11) (Reg AX) ; (* :1425 *)
   MULQ (Reg DI) ; (* :1426 *)
   ADDQ (Reg BP) (Reg R9) ; (* :1427 *)
   ADCQ (Imm 0) (Reg DX) ; (* :1428 *)
   ADDQ (Reg AX) (Reg R9) ; (* :1429 *)
   ADCQ (Imm 0) (Reg DX) ; (* :1430 *)
   MOVQ (Reg DX) (Reg BP) ; (* :1431 *)
   MOVQ (Reg R11) (Reg AX) ; (* :1433 *)
   MULQ (Reg SI) ; (* :1434 *)
   ADDQ (Reg BP) (Reg R10) ; (* :1435 *)
   ADCQ (Imm 0) (Reg DX) ; (* :1436 *)
   ADDQ (Reg AX) (Reg R10) ; (* :1437 *)
   ADCQ (Imm 0) (Reg DX) ; (* :1438 *)
   MOVQ (Reg DX) (Reg R11) ; (* :1439 *)
   MOVQ (Reg R12) (Reg AX) ; (* :1441 *)
   MULQ (Reg R14) ; (* :1442 *)
   ADDQ (Reg AX) (Reg R8) ; (* :1443 *)
   ADCQ (Imm 0) (Reg DX) ; (* :1444 *)
   MOVQ (Reg DX) (Reg BP) ; (* :1445 *)
   MOVQ (Reg R12) (Reg AX) ; (* :1447 *)
   MULQ (Reg R15) ; (* :1448 *)
   ADDQ (Reg BP) (Reg R9) ; (* :1449 *)
   ADCQ (Imm 0) (Reg DX) ; (* :1450 *)
   ADDQ (Reg AX) (Reg R9) ; (* :1451 *)
   ADCQ (Imm 0) (Reg DX) ; (* :1452 *)
   MOVQ (Reg DX) (Reg BP) ; (* :1453 *)
   MOVQ (Reg R12) (Reg AX) ; (* :1455 *)
   MULQ (Reg DI) ; (* :1456 *)
   ADDQ (Reg BP) (Reg R10) ; (* :1457 *)
   ADCQ (Imm 0) (Reg DX) ; (* :1458 *)
   ADDQ (Reg AX) (Reg R10) ; (* :1459 *)
   ADCQ (Imm 0) (Reg DX) ; (* :1460 *)
   MOVQ (Reg DX) (Reg BP) ; (* :1461 *)
   MOVQ (Reg R12) (Reg AX) ; (* :1463 *)
   MULQ (Reg SI) ; (* :1464 *)
   ADDQ (Reg BP) (Reg R11) ; (* :1465 *)
   ADCQ (Imm 0) (Reg DX) ; (* :1466 *)
   ADDQ (Reg AX) (Reg R11) ; (* :1467 *)
   ADCQ (Imm 0) (Reg DX) ; (* :1468 *)
   MOVQ (Reg DX) (Reg R12) ; (* :1469 *)
   MOVQ (Reg R13) (Reg AX) ; (* :1471 *)
   MULQ (Reg R14) ; (* :1472 *)
   ADDQ (Reg AX) (Reg R9) ; (* :1473 *)
   ADCQ (Imm 0) (Reg DX) ; (* :1474 *)
   MOVQ (Reg DX) (Reg BP) ; (* :1475 *)
   MOVQ (Reg R13) (Reg AX) ; (* :1477 *)
   MULQ (Reg R15) ; (* :1478 *)
   ADDQ (Reg BP) (Reg R10) ; (* :1479 *)
   ADCQ (Imm 0) (Reg DX) ; (* :1480 *)
   ADDQ (Reg AX) (Reg R10) ; (* :1481 *)
   ADCQ (Imm 0) (Reg DX) ; (* :1482 *)
   MOVQ (Reg DX) (Reg BP) ; (* :1483 *)
   MOVQ (Reg R13) (Reg AX) ; (* :1485 *)
   MULQ (Reg DI) ; (* :1486 *)
   ADDQ (Reg BP) (Reg R11) ; (* :1487 *)
   ADCQ (Imm 0) (Reg DX) ; (* :1488 *)
   ADDQ (Reg AX) (Reg R11) ; (* :1489 *)
   ADCQ (Imm 0) (Reg DX) ; (* :1490 *)
   MOVQ (Reg DX) (Reg BP) ; (* :1491 *)
   MOVQ (Reg R13) (Reg AX) ; (* :1493 *)
   MULQ (Reg SI) ; (* :1494 *)
   ADDQ (Reg BP) (Reg R12) ; (* :1495 *)
   ADCQ (Imm 0) (Reg DX) ; (* :1496 *)
   ADDQ (Reg AX) (Reg R12) ; (* :1497 *)
   ADCQ (Imm 0) (Reg DX) ; (* :1498 *)
   MOVQ (Reg DX) (Reg R13) ; (* :1499 *)
   MOVQ (Reg BX) (Reg AX) ; (* :1512 *)
   MOVQ (Reg BX) (Reg BP) ; (* :1513 *)
   SHLQ (Imm 32) (Reg BX) ; (* :1515 *)
   SHRQ (Imm 32) (Reg BP) ; (* :1516 *)
   ADDQ (Reg AX) (Reg CX) ; (* :1517 *)
   ADCQ (Imm 0) (Reg R8) ; (* :1518 *)
   SUBQ (Reg BX) (Reg CX) ; (* :1519 *)
   SBBQ (Reg BP) (Reg R8) ; (* :1520 *)
   SBBQ (Imm 0) (Reg R9) ; (* :1521 *)
   MULQ (Cst 0) ; (* :1522 *)
   ADDQ (Reg AX) (Reg R9) ; (* :1523 *)
   ADCQ (Imm 0) (Reg DX) ; (* :1524 *)
   MOVQ (Reg DX) (Reg BX) ; (* :1525 *)
   MOVQ (Reg CX) (Reg AX) ; (* :1539 *)
   MOVQ (Reg CX) (Reg BP) ; (* :1540 *)
   SHLQ (Imm 32) (Reg CX) ; (* :1542 *)
   SHRQ (Imm 32) (Reg BP) ; (* :1543 *)
   ADDQ (Reg AX) (Reg R8) ; (* :1544 *)
   ADCQ (Imm 0) (Reg R9) ; (* :1545 *)
   SUBQ (Reg CX) (Reg R8) ; (* :1546 *)
   SBBQ (Reg BP) (Reg R9) ; (* :1547 *)
   SBBQ (Imm 0) (Reg BX) ; (* :1548 *)
   MULQ (Cst 0) ; (* :1549 *)
   ADDQ (Reg AX) (Reg BX) ; (* :1550 *)
   ADCQ (Imm 0) (Reg DX) ; (* :1551 *)
   MOVQ (Reg DX) (Reg CX) ; (* :1552 *)
   MOVQ (Reg R8) (Reg AX) ; (* :1565 *)
   MOVQ (Reg R8) (Reg BP) ; (* :1566 *)
   SHLQ (Imm 32) (Reg R8) ; (* :1568 *)
   SHRQ (Imm 32) (Reg BP) ; (* :1569 *)
   ADDQ (Reg AX) (Reg R9) ; (* :1570 *)
   ADCQ (Imm 0) (Reg BX) ; (* :1571 *)
   SUBQ (Reg R8) (Reg R9) ; (* :1572 *)
   SBBQ (Reg BP) (Reg BX) ; (* :1573 *)
   SBBQ (Imm 0) (Reg CX) ; (* :1574 *)
   MULQ (Cst 0) ; (* :1575 *)
   ADDQ (Reg AX) (Reg CX) ; (* :1576 *)
   ADCQ (Imm 0) (Reg DX) ; (* :1577 *)
   MOVQ (Reg DX) (Reg R8) ; (* :1578 *)
   MOVQ (Reg R9) (Reg AX) ; (* :1591 *)
   MOVQ (Reg R9) (Reg BP) ; (* :1592 *)
   SHLQ (Imm 32) (Reg R9) ; (* :1594 *)
   SHRQ (Imm 32) (Reg BP) ; (* :1595 *)
   ADDQ (Reg AX) (Reg BX) ; (* :1596 *)
   ADCQ (Imm 0) (Reg CX) ; (* :1597 *)
   SUBQ (Reg R9) (Reg BX) ; (* :1598 *)
   SBBQ (Reg BP) (Reg CX) ; (* :1599 *)
   SBBQ (Imm 0) (Reg R8) ; (* :1600 *)
   MULQ (Cst 0) ; (* :1601 *)
   ADDQ (Reg AX) (Reg R8) ; (* :1602 *)
   ADCQ (Imm 0) (Reg DX) ; (* :1603 *)
   MOVQ (Reg DX) (Reg R9) ; (* :1604 *)
   MOVQ (Imm 0) (Reg BP) ; (* :1606 *)
   ADCQ (Reg BX) (Reg R10) ; (* :1609 *)
   ADCQ (Reg CX) (Reg R11) ; (* :1610 *)
   ADCQ (Reg R8) (Reg R12) ; (* :1611 *)
   ADCQ (Reg R9) (Reg R13) ; (* :1612 *)
   ADCQ (Imm 0) (Reg BP) ; (* :1613 *)
   MOVQ (Reg R10) (Reg BX) ; (* :1615 *)
   MOVQ (Reg R11) (Reg CX) ; (* :1616 *)
   MOVQ (Reg R12) (Reg R8) ; (* :1617 *)
   MOVQ (Reg R13) (Reg R9) ; (* :1618 *)
   SUBQ (Imm 18446744073709551615) (Reg R10) ; (* :1626 *)
   SBBQ (Cst 0) (Reg R11) ; (* :1627 *)
   SBBQ (Imm 18446744073709551615) (Reg R12) ; (* :1628 *)
   SBBQ (Cst 1) (Reg R13) ; (* :1629 *)
   SBBQ (Imm 0) (Reg BP) ; (* :1630 *)
   CMOVQCS (Reg BX) (Reg R10) ; (* :1632 *)
   CMOVQCS (Reg CX) (Reg R11) ; (* :1633 *)
   CMOVQCS (Reg R8) (Reg R12) ; (* :1634 *)
   CMOVQCS (Reg R9) (Reg R13) (* :1635 *)].
(* p256GmSqrInternal, sm2p256_amd64.s:1639-1846 *)
Definition c_p256GmSqrInternal : list instr := [
   MOVQ (Reg R10) (Reg AX) ; (* :1641 *)
   MULQ (Reg R11) ; (* :1642 *)
   MOVQ (Reg AX) (Reg CX) ; (* :1643 *)
   MOVQ (Reg DX) (Reg R8) ; (* :1644 *)
   MOVQ (Reg R10) (Reg AX) ; (* :1646 *)
   MULQ (Reg R12) ; (* :1647 *)
   ADDQ (Reg AX) (Reg R8) ; (* :1648 *)
   ADCQ (Imm 0) (Reg DX) ; (* :1649 *)
   MOVQ (Reg DX) (Reg R9) ; (* :1650 *)
   MOVQ (Reg R10) (Reg AX) ; (* :1652 *)
   MULQ (Reg R13) ; (* :1653 *)
   ADDQ (Reg AX) (Reg R9) ; (* :1654 *)
   ADCQ (Imm 0) (Reg DX) ; (* :1655 *)
   MOVQ (Reg DX) (Reg R14) ; (* :1656 *)
   MOVQ (Reg R11) (Reg AX) ; (* :1658 *)
   MULQ (Reg R12) ; (* :1659 *)
   ADDQ (Reg AX) (Reg R9) ; (* :1660 *)
   ADCQ (Imm 0) (Reg DX) ; (* :1661 *)
   MOVQ (Reg DX) (Reg BP) ; (* :1662 *)
   MOVQ (Reg R11) (Reg AX) ; (* :1664 *)
   MULQ (Reg R13) ; (* :1665 *)
   ADDQ (Reg BP) (Reg R14) ; (* :1666 *)
   ADCQ (Imm 0) (Reg DX) ; (* :1667 *)
   ADDQ (Reg AX) (Reg R14) ; (* :1668 *)
   ADCQ (Imm 0) (Reg DX) ; (* :1669 *)
   MOVQ (Reg DX) (Reg R15) ; (* :1670 *)
   MOVQ (Reg R12) (Reg AX) ; (* :1672 *)
   MULQ (Reg R13) ; (* :1673 *)
   ADDQ (Reg AX) (Reg R15) ; (* :1674 *)
   ADCQ (Imm 0) (Reg DX) ; (* :1675 *)
   MOVQ (Reg DX) (Reg DI) ; (* :1676 *)
   XORQ (Reg SI) (Reg SI) ; (* :1677 *)
   ADDQ (Reg CX) (Reg CX) ; (* :1679 *)
   ADCQ (Reg R8) (Reg R8) ; (* :1680 *)
   ADCQ (Reg R9) (Reg R9) ; (* :1681 *)
   ADCQ (Reg R14) (Reg R14) ; (* :1682 *)
   ADCQ (Reg R15) (Reg R15) ; (* :1683 *)
   ADCQ (Reg DI) (Reg DI) ; (* :1684 *)
   ADCQ (Imm 0) (Reg SI) ; (* :1685 *)
   MOVQ (Reg R10) (Reg AX) ; (* :1687 *)
   MULQ (Reg AX) ; (* :1688 *)
   MOVQ (Reg AX) (Reg BX) ; (* :1689 *)
   MOVQ (Reg DX) (Reg R10) ; (* :1690 *)
   MOVQ (Reg R11) (Reg AX) ; (* :1692 *)
   MULQ (Reg AX) ; (* :1693 *)
   ADDQ (Reg R10) (Reg CX) ; (* :1694 *)
   ADCQ (Reg AX) (Reg R8) ; (* :1695 *)
   ADCQ (Imm 0) (Reg DX) ; (* :1696 *)
   MOVQ (Reg DX) (Reg R10) ; (* :1697 *)
   MOVQ (Reg R12) (Reg AX) ; (* :1699 *)
   MULQ (Reg AX) ; (* :1700 *)
   ADDQ (Reg R10) (Reg R9) ; (* :1701 *)
   ADCQ (Reg AX) (Reg R14) ; (* :1702 *)
   ADCQ (Imm 0) (Reg DX) ; (* :1703 *)
   MOVQ (Reg DX) (Reg R10) ; (* :1704 *)
   MOVQ (Reg R13) (Reg AX) ; (* :1706 *)
   MULQ (Reg AX) ; (* :1707 *)
   ADDQ (Reg R10) (Reg R15) ; (* :1708 *)
   ADCQ (Reg AX) (Reg DI) ; (* :1709 *)
   ADCQ (Reg DX) (Reg SI) ; (* :1710 *)
   MOVQ (Reg BX) (Reg AX) ; (* :1723 *)
   MOVQ (Reg BX) (Reg BP) ; (* :1724 *)
   SHLQ (Imm 32) (Reg BX) ; (* :1726 *)
   SHRQ (Imm 32) (Reg BP) ; (* :1727 *)
   ADDQ (Reg AX) (Reg CX) ; (* :1728 *)
   ADCQ (Imm 0) (Reg R8) ; (* :1729 *)
   SUBQ (Reg BX) (Reg CX) ; (* :1730 *)
   SBBQ (Reg BP) (Reg R8) ; (* :1731 *)
   SBBQ (Imm 0) (Reg R9) ; (* :1732 *)
   MULQ (Cst 0) ; (* :1733 *)
   ADDQ (Reg AX) (Reg R9) ; (* :1734 *)
   ADCQ (Imm 0) (Reg DX) ; (* :1735 *)
   MOVQ (Reg DX) (Reg BX) ; (* :1736 *)
   MOVQ (Reg CX) (Reg AX) ; (* :1750 *)
   MOVQ (Reg CX) (Reg BP) ; (* :1751 *)
   SHLQ (Imm 32) (Reg CX) ; (* :1753 *)
   SHRQ (Imm 32) (Reg BP) ; (* :1754 *)
   ADDQ (Reg AX) (Reg R8) ; (* :1755 *)
   ADCQ (Imm 0) (Reg R9) ; (* :1756 *)
   SUBQ (Reg CX) (Reg R8) ; (* :1757 *)
   SBBQ (Reg BP) (Reg R9) ; (* :1758 *)
   SBBQ (Imm 0) (Reg BX) ; (* :1759 *)
   MULQ (Cst 0) ; (* :1760 *)
   ADDQ (Reg AX) (Reg BX) ; (* :1762 *)
   ADCQ (Imm 0) (Reg DX) ; (* :1763 *)
   MOVQ (Reg DX) (Reg CX) ; (* :1764 *)
   MOVQ (Reg R8) (Reg AX) ; (* :1778 *)
   MOVQ (Reg R8) (Reg BP) ; (* :1779 *)
   SHLQ (Imm 32) (Reg R8) ; (* :1781 *)
   SHRQ (Imm 32) (Reg BP) ; (* :1782 *)
   ADDQ (Reg AX) (Reg R9) ; (* :1783 *)
   ADCQ (Imm 0) (Reg BX) ; (* :1784 *)
   SUBQ (Reg R8) (Reg R9) ; (* :1785 *)
   SBBQ (Reg BP) (Reg BX) ; (* :1786 *)
   SBBQ (Imm 0) (Reg CX) ; (* :1787 *)
   MULQ (Cst 0) ; (* :1788 *)
   ADDQ (Reg AX) (Reg CX) ; (* :1789 *)
   ADCQ (Imm 0) (Reg DX) ; (* :1790 *)
   MOVQ (Reg DX) (Reg R8) ; (* :1791 *)
   MOVQ (Reg R9) (Reg AX) ; (* :1805 *)
   MOVQ (Reg R9) (Reg BP) ; (* :1806 *)
   SHLQ (Imm 32) (Reg R9) ; (* :1808 *)
   SHRQ (Imm 32) (Reg BP) ; (* :1809 *)
   ADDQ (Reg AX) (Reg BX) ; (* :1810 *)
   ADCQ (Imm 0) (Reg CX) ; (* :1811 *)
   SUBQ (Reg R9) (Reg BX) ; (* :1812 *)
   SBBQ (Reg BP) (Reg CX) ; (* :1813 *)
   SBBQ (Imm 0) (Reg R8) ; (* :1814 *)
   MULQ (Cst 0) ; (* :1815 *)
   ADDQ (Reg AX) (Reg R8) ; (* :1817 *)
   ADCQ (Imm 0) (Reg DX) ; (* :1818 *)
   MOVQ (Reg DX) (Reg R9) ; (* :1819 *)
   MOVQ (Imm 0) (Reg BP) ; (* :1821 *)
   ADCQ (Reg BX) (Reg R14) ; (* :1824 *)
   ADCQ (Reg CX) (Reg R15) ; (* :1825 *)
   ADCQ (Reg R8) (Reg DI) ; (* :1826 *)
   ADCQ (Reg R9) (Reg SI) ; (* :1827 *)
   ADCQ (Imm 0) (Reg BP) ; (* :1828 *)
   MOVQ (Reg R14) (Reg R10) ; (* :1830 *)
   MOVQ (Reg R15) (Reg R11) ; (* :1831 *)
   MOVQ (Reg DI) (Reg R12) ; (* :1832 *)
   MOVQ (Reg SI) (Reg R13) ; (* :1833 *)
   SUBQ (Imm 18446744073709551615) (Reg R10) ; (* :1835 *)
   SBBQ (Cst 0) (Reg R11) ; (* :1836 *)
   SBBQ (Imm 18446744073709551615) (Reg R12) ; (* :1837 *)
   SBBQ (Cst 1) (Reg R13) ; (* :1838 *)
   SBBQ (Imm 0) (Reg BP) ; (* :1839 *)
   CMOVQCS (Reg R14) (Reg R10) ; (* :1841 *)
   CMOVQCS (Reg R15) (Reg R11) ; (* :1842 *)
   CMOVQCS (Reg DI) (Reg R12) ; (* :1843 *)
   CMOVQCS (Reg SI) (Reg R13) (* :1844 *)].
