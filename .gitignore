*.vo
*.vok
*.vos
*.glob
.*.aux
*.d
/rocq/Makefile
/rocq/Makefile.conf
.lia.cache
__pycache__/
