#!/usr/bin/env python3
"""Regenerates MANIFEST.json from the table below (run from /verif)."""
import json
C=[]
def c(p,status,theorems,note=""):
    C.append({"property":p,"status":status,"theorems":theorems.split(),"note":note})
c("C01","proved","C01_SumSM3_is_SM3")
c("C02","proved","C02_streaming_equals_one_shot")
c("C03","proved","C03_histories_match_reference")
c("C04","proved","C04_no_panic_and_size_32")
c("C05","proved","C05_block_is_SM4 C05_hyps")
c("C06","proved","C06_decrypt_inverts_encrypt")
c("C07","proved","C07_key_size")
c("C08","proved","C08_ecb_round_trip")
c("C09","proved","C09_cbc_round_trip")
c("C10","partial","C10_malformed_reported_refuted C10_decrypt_outcome_partial","The property is FALSE of the code: malformed ciphertexts give (nil, nil) and the empty one panics. Proved: the refutation for every key, and the exact outcome on every nonempty input.")
c("C11","partial","C11_caller_memory_refuted C11_caller_memory_partial","The property is FALSE of the code: append in pkcs7Padding writes into spare capacity. Proved: the refutation and what is preserved.")
exec(open('tools/claims_more.py').read()) if __import__('os').path.exists('tools/claims_more.py') else None
json.dump({"claims":C},open('MANIFEST.json','w'),indent=1)
