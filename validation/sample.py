"""Evaluate the model on the sample vault of /repo.

    python3 sample.py > /tmp/sample.v
    coqc -Q /verif/rocq/theories Verif /tmp/sample.v

(after building /verif/rocq).  PBKDF2 with 50000 iterations is too slow inside
Coq, so its result is computed here; everything else is evaluated by the model.
The output is in sample.out.
"""
import base64
import hashlib
import json
import os

VAULT = '/repo/assets/onepassword_data/default'
PASSWORD = b'freddy'


def main():
    text = open(VAULT + '/profile.js').read()
    profile = json.loads(text[text.index('{'):text.rindex('}') + 1])
    key = hashlib.pbkdf2_hmac('sha512', PASSWORD, base64.b64decode(profile['salt']),
                              profile['iterations'], 64)
    print('From Verif Require Import Base Utf8 GoStrings Float64 Json Crypto Path Fs Domain '
          'Repos Session Toy RealCrypto Properties_Real.')
    print('Definition dk := Eval vm_compute in unhex (b "%s").' % key.hex())
    print('Definition C : crypto := {| aes_enc := aes_encrypt; aes_dec := aes_decrypt; '
          'hmac256 := hmac_sha256; sha512 := sha sha512_params; pbkdf2 p s i := '
          'if bytes_eqb p (b "freddy") then dk else repeat "x"%char 64; md5 := md5_sum |}.')
    files = []
    for i, name in enumerate(sorted(os.listdir(VAULT))):
        if name.endswith('.js') and not name.startswith('._'):
            content = open(VAULT + '/' + name).read().replace('"', '""')
            print('Definition f%d := Eval vm_compute in b "%s".' % (i, content))
            files.append('([b "%s"; b "default"; b "v"], NFile f%d 420)' % (name, i))
    print('Definition D := MkDisk [%s; ([b "default"; b "v"], NDir); ([b "v"], NDir)] [] '
          '(fun _ => false).' % '; '.join(files))
    print('''
Definition utc0 (x : Z) : Z := 0%Z.
Definition st := Eval vm_compute in run C latin1 utc0
  [(backwards, D, OpValidate (b "/v")); (backwards, D, OpUnlock (b "/v") (b "freddy"))] init.
Definition s0 := match st with Ok (s, _) => s | _ => init end.
Definition str (x : bytes) := string_of_list_ascii x.
Eval vm_compute in match st with Ok (_, r) => r | _ => [] end.
Eval vm_compute in (count_items None false s0, count_items None true s0).
Eval vm_compute in map (fun c => (str (cat_name c), count_items (Some c) false s0)) (st_reg s0).
Eval vm_compute in map (fun i => (str (s_title i), str (s_uid i))) (get_items latin1 backwards None [] false s0).
Eval vm_compute in map (fun i => str (s_title i)) (get_items latin1 backwards None [] true s0).
Eval vm_compute in map (fun i => str (s_title i)) (get_items latin1 backwards None (b "ap") false s0).
Eval vm_compute in option_map (fun i => str (it_title i)) (get_item (b "0EDE2B13D7AC4E2C9105842682ACB187") false s0).
Eval vm_compute in option_map (fun i => str (it_title i)) (get_item (b "AE272805811C450586BA3EDEAEF8AE19") true s0).
Eval vm_compute in option_map (fun i =>
  map (fun s => (str (sec_title s), map (fun f => (str (fld_name f), str (fld_value f))) (sec_fields s)))
    (it_sections i)) (get_item (b "358B7411EB8B45CD9CE592ED16F3E9DE") false s0).
Eval vm_compute in match unlock C latin1 utc0 backwards D (b "/v") (b "wrong") s0 with Ok (_, r) => r | _ => None end.
''')


main()
