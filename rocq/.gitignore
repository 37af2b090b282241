.lia.cache
.nia.cache
*.vo
*.vok
*.vos
*.glob
*.aux
.*.aux
Makefile
Makefile.conf
.Makefile.d
*.d
.nra.cache
.lra.cache
.csdp.cache
