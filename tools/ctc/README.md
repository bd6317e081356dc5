Translator from the C sources to the language of `rocq/theories/Model/CtLang.v`.

    python3 prep.py OUT                                # preprocess copies of /repo into OUT
    python3 c2v.py OUT ../../rocq/theories/Model       # write Model/Ct*.v, Proof/CtEntries.v, Proof/FpEntries.v

`prep.py` only preprocesses (`gcc -E`); nothing is compiled. `inc` has stub headers and the stand-in for the
random source and for memcmp. `c2v.py` prints a line `LEAK` for each place where a secret reaches a branch, an address, a
division or a length. It prints a line `WRITE` for each place where a call writes to one of its inputs.
