.nra.cache
.lra.cache
__pycache__/
.nra.cache
.lia.cache
.Makefile.d
.lia.cache
.nia.cache
