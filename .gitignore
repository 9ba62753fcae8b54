.lia.cache
.nia.cache
Makefile*
.nra.cache
